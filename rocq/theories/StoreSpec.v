(* What a packet store is expected to do. *)
From Coq Require Import ZArith List.
From Verif Require Import Py Core Crypto Tree Store.
Import ListNotations.
Open Scope Z_scope.

Section StoreSpec.
Variable P : prims.
Notation hash := (packet_hash (pr_sha P)).

(* the first and the last packet of a list with hash h *)
Definition first_with (h : hashv) (ps : list packet) (p : packet) : Prop :=
  exists l1 l2, ps = l1 ++ p :: l2 /\ hash p = Ok h /\ forall q, In q l1 -> hash q <> Ok h.
Definition last_with (h : hashv) (ps : list packet) (p : packet) : Prop :=
  exists l1 l2, ps = l1 ++ p :: l2 /\ hash p = Ok h /\ forall q, In q l2 -> hash q <> Ok h.
Definition absent (h : hashv) (ps : list packet) : Prop := forall q, In q ps -> hash q <> Ok h.

(* the wire images of some packets have b bytes in all *)
Definition wire_bytes (ps : list packet) (b : Z) : Prop :=
  exists ws, Forall2 (fun p w => packet_wire p = Ok w) ps ws /\ b = zlen (concat ws).
Variable uri_path : name -> res bytes.
(* the state after some puts, whether or not they raise *)
Definition dir_puts (o : dwopt P) (ps : list packet) (s : dwriter) : dwriter :=
  fold_left (fun s p => snd (dir_put P uri_path o p s)) ps s.

End StoreSpec.
