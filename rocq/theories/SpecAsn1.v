(** SpecAsn1.v -- small independent specifications for C05-C12. *)
From Coq Require Import ZArith List Bool.
Import ListNotations.
Open Scope Z_scope.

(** Big-endian two's complement value of a non-empty octet string. *)
Definition tc_value (l : list Z) : Z :=
  match l with
  | [] => 0
  | b :: r => fold_left (fun a x => a * 256 + x) r (if b <? 128 then b else b - 256)
  end.

(** "The first nine bits are neither all 0 nor all 1" (X.690 8.3.2). *)
Definition minimal_first_octets (l : list Z) : Prop :=
  match l with
  | [] => False
  | [_] => True
  | a :: b :: _ => ~ (a = 0 /\ b < 128) /\ ~ (a = 255 /\ 128 <= b)
  end.

(** Strict lexicographic order on sequences of integers. *)
Inductive lex_lt : list Z -> list Z -> Prop :=
| lex_prefix : forall p y b, lex_lt p (p ++ y :: b)
| lex_differ : forall p x a y b, x < y -> lex_lt (p ++ x :: a) (p ++ y :: b).

(** Value of a sequence of base-128 groups, most significant first. *)
Definition base128 (groups : list Z) : Z := fold_left (fun a g => a * 128 + g) groups 0.
