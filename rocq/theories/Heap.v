(** Heap.v -- model of the standard library's heapq, as used by the managers
    (definitions only).  [lt] is the elements' __lt__, which may update the
    state [S] (ComparableWeakRef stores the keys it reads).

    heapq is CPython's Lib/heapq.py (the C accelerator runs the same algorithm,
    except that heapify() visits the nodes of lists longer than 2500 in another
    order).  Lists are modified in place there; here the new list is returned.
    Loops are given a fuel that is never exhausted. *)
From Verif Require Export Utils.

Section Heap.
  Context {S A : Type} (lt : S -> A -> A -> bool * S).

  (** heap[i] = x *)
  Fixpoint put (l : list A) (i : nat) (x : A) : list A :=
    match l, i with
    | [], _ => []
    | _ :: l', O => x :: l'
    | y :: l', Datatypes.S i' => y :: put l' i' x
    end.

  (** _siftdown(heap, startpos, pos), with newitem already read; an index error
      is impossible (see PrfHeap.v) and ends the loop here. *)
  Fixpoint siftdown (fuel : nat) (s : S) (h : list A) (start pos : nat) (new : A) : S * list A :=
    match fuel with
    | O => (s, put h pos new)
    | Datatypes.S fuel' =>
      if (start <? pos)%nat then
        let parentpos := Nat.div2 (pos - 1) in
        match nth_error h parentpos with
        | None => (s, put h pos new)
        | Some parent =>
          let '(b, s) := lt s new parent in
          if b then siftdown fuel' s (put h pos parent) start parentpos new
          else (s, put h pos new)
        end
      else (s, put h pos new)
    end.

  (** The first loop of _siftup(heap, pos): move the smaller child up until a
      leaf is reached. *)
  Fixpoint sift_to_leaf (fuel : nat) (s : S) (h : list A) (pos : nat) : S * list A * nat :=
    match fuel with
    | O => (s, h, pos)
    | Datatypes.S fuel' =>
      let childpos := (2 * pos + 1)%nat in
      match nth_error h childpos with
      | None => (s, h, pos)
      | Some child =>
        let rightpos := (childpos + 1)%nat in
        let '(s, childpos, child) :=
          match nth_error h rightpos with
          | None => (s, childpos, child)
          | Some rgt =>
            let '(b, s) := lt s child rgt in
            if b then (s, childpos, child) else (s, rightpos, rgt)
          end in
        sift_to_leaf fuel' s (put h pos child) childpos
      end
    end.
  Definition siftup (s : S) (h : list A) (pos : nat) : S * list A :=
    match nth_error h pos with
    | None => (s, h)
    | Some new =>
      let '(s, h', leaf) := sift_to_leaf (length h) s h pos in
      siftdown (length h) s h' pos leaf new
    end.

  Definition heappush (s : S) (h : list A) (x : A) : S * list A :=
    siftdown (Datatypes.S (length h)) s (h ++ [x]) 0 (length h) x.
  (** None: IndexError. *)
  Definition heappop (s : S) (h : list A) : option (S * list A) :=
    match rev h with
    | [] => None
    | last :: r =>
      match rev r with
      | [] => Some (s, [])
      | h' => Some (siftup s (put h' 0 last) 0)
      end
    end.
  Definition heapreplace (s : S) (h : list A) (x : A) : option (S * list A) :=
    match h with
    | [] => None
    | _ :: t => Some (siftup s (x :: t) 0)
    end.
  (** for i in reversed(range(n//2)): _siftup(x, i) *)
  Fixpoint heapify_from (s : S) (h : list A) (i : nat) : S * list A :=
    match i with
    | O => (s, h)
    | Datatypes.S i' => let '(s, h) := siftup s h i' in heapify_from s h i'
    end.
  Definition heapify (s : S) (h : list A) : S * list A := heapify_from s h (Nat.div2 (length h)).
End Heap.
