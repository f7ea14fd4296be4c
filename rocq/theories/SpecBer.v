(** SpecBer.v -- independent description of the BER octets ber.py understands
    (X.690 8.1.2, 8.1.3, definite form; non-minimal forms allowed). *)
From Coq Require Import ZArith List Bool.
Import ListNotations.
Open Scope Z_scope.

(** Identifier octets of (class, constructed, number). *)
Inductive identifier_octets : list Z -> Z -> bool -> Z -> Prop :=
| ident_low : forall (cls : Z) (c : bool) (n : Z), 0 <= cls <= 3 -> 0 <= n < 31 ->
    identifier_octets [64 * cls + (if c then 32 else 0) + n] cls c n
| ident_high : forall (cls : Z) (c : bool) (highs : list Z) (low : Z), 0 <= cls <= 3 ->
    Forall (fun b => 128 <= b < 256) highs -> 0 <= low < 128 ->
    identifier_octets ((64 * cls + (if c then 32 else 0) + 31) :: highs ++ [low]) cls c
      (fold_left (fun a g => a * 128 + g) (map (fun b => b - 128) highs ++ [low]) 0).

(** Length octets.  ber.py reads 0x80 as "zero length octets follow", value 0. *)
Inductive length_octets : list Z -> Z -> Prop :=
| length_short : forall n, 0 <= n < 128 -> length_octets [n] n
| length_long : forall ds, (length ds <= 127)%nat -> Forall (fun b => 0 <= b < 256) ds ->
    length_octets ((128 + Z.of_nat (length ds)) :: ds) (fold_left (fun a x => a * 256 + x) ds 0).

(** One TLV: [input = identifier ++ length ++ body ++ leftover]. *)
Definition tlv (input : list Z) (cls : Z) (constructed : bool) (number : Z) (body leftover : list Z) : Prop :=
  exists ident len, identifier_octets ident cls constructed number /\
    length_octets len (Z.of_nat (length body)) /\ input = ident ++ len ++ body ++ leftover.
