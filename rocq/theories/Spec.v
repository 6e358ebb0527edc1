(* Small specifications, independent of the model of the code. *)
From Coq Require Import ZArith List Bool.
Import ListNotations.
Open Scope Z_scope.

(* value of a big-endian byte string *)
Fixpoint be_value (l : list Z) : Z :=
  match l with
  | [] => 0
  | b :: l' => b * 256 ^ Z.of_nat (length l') + be_value l'
  end.

(* the wire image of a type-length-value triple: two big-endian 16-bit
   numbers and the value *)
Definition frame (ty : Z) (v : list Z) : list Z :=
  let n := Z.of_nat (length v) in
  [ty / 256; ty mod 256; n / 256; n mod 256] ++ v.

Definition all_bytes (l : list Z) : Prop := forall b, In b l -> 0 <= b < 256.

(* a representable triple *)
Definition frameable (ty : Z) (v : list Z) : Prop :=
  0 <= ty < 65536 /\ Z.of_nat (length v) < 65536 /\ all_bytes v.

(* number of body bytes used for an integer *)
Definition int_width (n : Z) : Z :=
  if n <? 2 ^ 8 then 1 else if n <? 2 ^ 16 then 2 else
  if n <? 2 ^ 24 then 3 else if n <? 2 ^ 32 then 4 else 8.

(* the k low-order base 256 digits of n, most significant first *)
Fixpoint be_bytes (k : nat) (n : Z) : list Z :=
  match k with
  | O => []
  | S k' => (n / 256 ^ Z.of_nat k') mod 256 :: be_bytes k' n
  end.
(* an unsigned integer field *)
Definition uint_frame (ty n : Z) : list Z := frame ty (be_bytes (Z.to_nat (int_width n)) n).
(* an optional field *)
Definition opt_bytes {A} (f : A -> list Z) (o : option A) : list Z :=
  match o with Some a => f a | None => [] end.
