(* C77: key derivation. *)
From Coq Require Import ZArith List Bool Lia.
From Verif Require Import Py Float Tlv Spec WireSpec Core TlvProofs CoreProofs PropsCore Flic FlicProofs PropsFlic Crypto CryptoProofs PropsCrypto
  Optimizer Tree Store Traversal Uri Apps PropsWire Kdf.
Import ListNotations.
Open Scope Z_scope.
Opaque tlv_make tlv_wire tlv_deserialize.

Lemma wire_opt_some {A} (enc : A -> res tlv) a w : wire_opt enc (Some a) = Ok w -> exists t, enc a = Ok t.
Proof. cbn [wire_opt]. intros H. apply bind_ok in H as (t & H & _). eauto. Qed.

(* * C77 *)
(* KDF.derive hands its arguments to HKDF for a member of the enumeration and
   raises ValueError for a number. *)
Theorem C77_derive : forall hkdf key len info salt,
  (forall i, kdf_derive hkdf (KMember i) key len info salt = hkdf i len salt info key) /\
  (forall n, kdf_derive hkdf (KNumber n) key len info salt = Err ValueError).
Proof. intros. split; reflexivity. Qed.
Print Assumptions C77_derive.

(* Without KDF data the key is the one given.  With KDF data there is no key:
   AssertionError if the data has no info; ValueError for a key of 192 bits, and
   as well for every other key.  The key number and the info are those of
   objects that exist, so that their wire formats do. *)
Theorem C77_key_refuted : forall hkdf p k,
  (ap_kdf p = None -> derive_key hkdf p k = Ok k) /\
  (forall d, ap_kdf p = Some d -> 0 <= ap_num p -> (exists t, kdf_tlv d = Ok t) ->
     derive_key hkdf p k = Err (match k_info d with None => AssertionError | Some _ => ValueError end)).
Proof.
  intros hkdf p k. unfold derive_key. split; [intros ->; reflexivity|]. intros d -> N (t & T). destruct (k_info d) as [i|] eqn:E; [|reflexivity].
  destruct (mode_of_key k) as [md|e] eqn:M; cbn [bind].
  2:{ unfold mode_of_key in M. destruct (ak_alg k), (ak_bits k =? 128), (ak_bits k =? 256); congruence. }
  assert (exists b, fixed_info (ap_num p) md i = Ok b) as (b & ->).
  { unfold kdf_tlv in T. apply bind_ok in T as (? & _ & T). apply bind_ok in T as (? & T & _). rewrite E in T. apply wire_opt_some in T as (c & T).
    unfold fixed_info. destruct (int_tlv_intro T_KEYNUM (ap_num p)) as (x1 & ->); [unfold T_KEYNUM; lia|exact N|].
    apply mode_fits in M. destruct (int_tlv_intro T_AEADMode md) as (x2 & ->); [unfold T_AEADMode; lia|unfold fits_mode in M; intuition lia|].
    rewrite T. cbn [bind]. eauto. }
  reflexivity.
Qed.
Print Assumptions C77_key_refuted.

(* The text that would go into the derivation stands for one key number, mode
   and info only. *)
Theorem C77_info : forall n m i n' m' i' b, n < 2 ^ 64 -> n' < 2 ^ 64 -> m < 2 ^ 64 -> m' < 2 ^ 64 ->
  fixed_info n m i = Ok b -> fixed_info n' m' i' = Ok b -> n = n' /\ m = m' /\ i = i'.
Proof.
  assert (I : forall n m i b, fixed_info n m i = Ok b -> exists x y z, int_tlv T_KEYNUM n = Ok x /\ int_tlv T_AEADMode m = Ok y /\
    octet_tlv T_KDF_INFO i = Ok z /\ b = [70; 76; 73; 67] ++ wires [x; y; z]).
  { intros n m i b H. unfold fixed_info in H. apply bind_ok in H as (x & X & H). apply bind_ok in H as (y & Y & H). apply bind_ok in H as (z & Z & H).
    apply Ok_inj in H. subst b. exists x, y, z. repeat (split; [assumption|]). unfold wires. cbn [map concat flat_map]. rewrite app_nil_r. reflexivity. }
  intros n m i n' m' i' b Hn Hn' Hm Hm' H H'. apply I in H as (x & y & z & X & Y & Z & ->). apply I in H' as (x' & y' & z' & X' & Y' & Z' & E).
  apply int_tlv_ok in X as (X1 & _ & X2 & X3). apply int_tlv_ok in Y as (Y1 & _ & Y2 & Y3). apply octet_tlv_ok in Z as (Z1 & _ & Z2).
  apply int_tlv_ok in X' as (X1' & _ & X2' & X3'). apply int_tlv_ok in Y' as (Y1' & _ & Y2' & Y3'). apply octet_tlv_ok in Z' as (Z1' & _ & Z2').
  apply app_inv_head in E. apply wires_inj in E; [|repeat (constructor; [assumption|]); constructor..]. injection E as -> -> ->.
  rewrite X3 in X3'. rewrite Y3 in Y3'. rewrite !Z.mod_small in X3' by lia. rewrite !Z.mod_small in Y3' by lia. repeat split; congruence.
Qed.
Print Assumptions C77_info.

(* copy_with_name keeps the algorithm and makes the encoded name the info. *)
Theorem C77_with_name : forall d n d', kdf_with_name d n = Ok d' ->
  k_alg d' = k_alg d /\ k_info d' = Some (w_name n) /\ exists t, kdf_tlv d' = Ok t.
Proof.
  intros d n d' H. unfold kdf_with_name in H. apply bind_ok in H as (t & T & H). apply bind_ok in H as (t' & T' & H). apply Ok_inj in H. subst d'.
  cbn [k_alg k_info]. split; [reflexivity|]. split; [f_equal; eapply name_wire; exact T|eauto].
Qed.
Print Assumptions C77_with_name.

Definition ex_kdf : kdf := mkKdf 1 None.
Definition ex_hkdf (i : kdfid) (len : Z) (salt : option kdf_salt) (info : option bytes) (key : bytes) : res bytes := Ok (repeat 5 (Z.to_nat len)).
Example C77_ex : exists d, kdf_with_name ex_kdf [mkComp 1 KBytes [97]] = Ok d /\ k_info d = Some [0; 0; 0; 5; 0; 1; 0; 1; 97] /\
  let k := mkAK GCM (repeat 1 16) in
  derive_key ex_hkdf (mkAP k 3 None (Some d) None) k = Err ValueError /\
  derive_key ex_hkdf (mkAP k 3 None (Some ex_kdf) None) k = Err AssertionError /\
  derive_key ex_hkdf (mkAP k 3 None None None) k = Ok k /\
  kdf_derive ex_hkdf (KMember HkdfSha384) (repeat 1 16) 16 None None = Ok (repeat 5 16) /\
  fixed_info 3 1 [9] = Ok [70; 76; 73; 67; 0; 0; 0; 1; 3; 0; 2; 0; 1; 1; 0; 7; 0; 1; 9].
Proof. eexists. split; [vm_compute; reflexivity|]. split; [vm_compute; reflexivity|]. cbv zeta. repeat split; vm_compute; reflexivity. Qed.
