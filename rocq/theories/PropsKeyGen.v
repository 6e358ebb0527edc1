(* Random keys, nonces and content keys (C84), for every source of random
   bytes that returns as many bytes as it is asked for. *)
From Coq Require Import ZArith List Bool Lia ZifyBool.
From Verif Require Import Py Tlv Float Core TlvProofs CoreProofs Spec PropsTlv PropsCore
  Flic WireSpec FlicProofs PropsFlic PropsWire Crypto CryptoProofs PropsCrypto KeyGen.
Import ListNotations.
Open Scope Z_scope.
Ltac Zify.zify_post_hook ::= Z.div_mod_to_equations.
Opaque tlv_make tlv_wire tlv_deserialize.

(* what is asked of os.urandom *)
Definition source (rnd : nat -> Z -> bytes) : Prop :=
  forall k n, 0 <= n -> Z.of_nat (length (rnd k n)) = n /\ Forall (fun b => 0 <= b < 256) (rnd k n).

(** * Keys *)
(* A generated key has the size and the class asked for and is what the source
   returned; it can be used (its mode is known) and its mode tells class and
   size.  Any size but 128 and 256 is refused, and nothing is drawn. *)
Theorem C84_generate : forall rnd k a bits, source rnd ->
  ((bits = 128 \/ bits = 256) -> exists x m, key_generate rnd k a bits = Ok x /\
     ak_alg x = a /\ ak_key x = rnd k (bits / 8) /\ ak_bits x = bits /\
     Z.of_nat (length (ak_key x)) * 8 = bits /\
     mode_of_key x = Ok m /\
     m = match a with GCM => if bits =? 128 then 1 else 2 | CCM => if bits =? 128 then 3 else 4 end) /\
  (~ (bits = 128 \/ bits = 256) -> forall rnd', key_generate rnd' k a bits = Err ValueError).
Proof.
  intros rnd k a bits S. split.
  - intros H. assert (D : 0 <= bits / 8) by lia. destruct (S k (bits / 8) D) as (L & B).
    assert (L8 : zlen (rnd k (bits / 8)) * 8 = bits) by (unfold zlen; lia).
    eexists (mkAK a (rnd k (bits / 8))), _. split; [|split; [reflexivity|split; [reflexivity|split; [exact L8|split; [exact L8|split; [|reflexivity]]]]]].
    + unfold key_generate, lib_generate, urandom.
      replace ((bits =? 128) || (bits =? 256)) with true by lia.
      replace ((bits =? 128) || (bits =? 192) || (bits =? 256)) with true by lia.
      replace (0 <=? bits / 8) with true by lia. cbn [guard bind].
      unfold aeadkey_make. unfold zlen. rewrite L.
      replace ((bits / 8 =? 16) || (bits / 8 =? 24) || (bits / 8 =? 32)) with true by lia. reflexivity.
    + unfold mode_of_key, ak_bits. cbn [ak_alg ak_key]. rewrite L8.
      destruct H as [-> | ->]; destruct a; reflexivity.
  - intros H rnd'. unfold key_generate. replace ((bits =? 128) || (bits =? 256)) with false by lia. reflexivity.
Qed.
Print Assumptions C84_generate.
(* the constructors also take 192 bit keys, which no mode describes: a key
   someone made can be used exactly when generate could have made it *)
Theorem C84_usable : forall a b x, aeadkey_make a b = Ok x -> Forall (fun v => 0 <= v < 256) b ->
  ((exists m, mode_of_key x = Ok m) <->
   (exists rnd bits, source rnd /\ key_generate rnd 0 a bits = Ok x)).
Proof.
  intros a b x H B. unfold aeadkey_make in H. apply bind_ok in H as (u & G & H). apply Ok_inj in H. subst x. split.
  - intros (m & M). unfold mode_of_key, ak_bits in M. cbn [ak_alg ak_key] in M.
    set (r := fun (_ : nat) (n : Z) => if n =? zlen b then b else repeat 0 (Z.to_nat n)).
    assert (S : source r).
    { intros k n N. unfold r. destruct (n =? zlen b) eqn:E; [split; [unfold zlen in E; lia|exact B]|].
      rewrite repeat_length. split; [lia|]. apply Forall_forall. intros v V. apply repeat_spec in V. lia. }
    assert (L : zlen b * 8 = 128 \/ zlen b * 8 = 256).
    { destruct a; destruct (zlen b * 8 =? 128) eqn:E1; destruct (zlen b * 8 =? 256) eqn:E2; try lia; discriminate. }
    exists r, (zlen b * 8). split; [exact S|].
    destruct (C84_generate r 0 a (zlen b * 8) S) as (K & _). destruct (K L) as (x & m' & Ex & A1 & A2 & _).
    rewrite Ex. destruct x as [xa xk]. cbn [ak_alg ak_key] in *. subst xa xk. unfold r.
    replace (zlen b * 8 / 8 =? zlen b) with true by lia. reflexivity.
  - intros (rnd & bits & S & K).
    destruct (C84_generate rnd 0 a bits S) as (K1 & K2).
    destruct (Z.eq_dec bits 128) as [E|E]; [|destruct (Z.eq_dec bits 256) as [E'|E']].
    + destruct (K1 (or_introl E)) as (x & m & Ex & _ & _ & _ & _ & M & _). exists m. congruence.
    + destruct (K1 (or_intror E')) as (x & m & Ex & _ & _ & _ & _ & M & _). exists m. congruence.
    + rewrite K2 in K by lia. discriminate.
Qed.
Print Assumptions C84_usable.
(* Keys of 16, 24 and 32 bytes are taken by the constructors as they are, all
   others raise ValueError; one of 24 bytes has no mode. *)
Theorem C84_constructors : forall a b,
  (In (length b) [16; 24; 32]%nat -> aeadkey_make a b = Ok (mkAK a b)) /\
  (~ In (length b) [16; 24; 32]%nat -> aeadkey_make a b = Err ValueError) /\
  (length b = 24%nat -> forall x, aeadkey_make a b = Ok x -> mode_of_key x = Err ValueError).
Proof.
  intros a b. unfold aeadkey_make. cbn [In]. split; [|split].
  - intros H. replace ((zlen b =? 16) || (zlen b =? 24) || (zlen b =? 32)) with true by (unfold zlen; lia). reflexivity.
  - intros H. replace ((zlen b =? 16) || (zlen b =? 24) || (zlen b =? 32)) with false by (unfold zlen; lia). reflexivity.
  - intros L x H. apply bind_ok in H as (u & _ & H). apply Ok_inj in H. subst x. unfold mode_of_key, ak_bits, zlen.
    cbn [ak_alg ak_key]. rewrite L. destruct a; reflexivity.
Qed.
Print Assumptions C84_constructors.

(** * Nonces *)
(* A nonce is the whole bytes that fit the bits asked for, straight from the
   source; only a negative number of bits is refused. *)
Theorem C84_nonce : forall rnd k bits, source rnd ->
  (0 <= bits -> exists n, key_nonce rnd k bits = Ok n /\ n = rnd k (bits / 8) /\
     8 * Z.of_nat (length n) <= bits < 8 * Z.of_nat (length n) + 8) /\
  (bits < 0 -> key_nonce rnd k bits = Err ValueError).
Proof.
  intros rnd k bits S. unfold key_nonce, urandom. split; intros H.
  - destruct (S k (bits / 8) ltac:(lia)) as (L & B). exists (rnd k (bits / 8)).
    replace (0 <=? bits / 8) with true by lia. cbn [guard bind]. rewrite array_B_intro by exact B.
    split; [reflexivity|]. split; [reflexivity|]. lia.
  - replace (0 <=? bits / 8) with false by lia. reflexivity.
Qed.
Print Assumptions C84_nonce.
(* "a nonce has the bits asked for" is false *)
Theorem C84_nonce_bits_refuted : exists rnd bits n, source rnd /\ 0 < bits /\ key_nonce rnd 0 bits = Ok n /\ n = [].
Proof.
  exists (fun _ n => repeat 7 (Z.to_nat n)), 7, []. split; [|split; [lia|split; reflexivity]].
  intros k n N. rewrite repeat_length. split; [lia|]. apply Forall_forall. intros v V. apply repeat_spec in V. lia.
Qed.
Print Assumptions C84_nonce_bits_refuted.
(* The IV of a manifest is twelve bytes with or without salt, and two draws
   give the same IV exactly when they give the same bytes.  The sizes assumed
   elsewhere (nonce_len) are those drawn. *)
Theorem C84_iv : forall rnd k p p', source rnd -> ap_make p = Ok p' ->
  exists n iv, impl_nonce rnd k p = Ok n /\ Z.of_nat (length n) = nonce_len p /\
    iv_of p n = Ok iv /\ length iv = 12%nat /\
    forall k' n' iv', impl_nonce rnd k' p = Ok n' -> iv_of p n' = Ok iv' -> (iv = iv' <-> n = n').
Proof.
  intros rnd k p p' S M. unfold impl_nonce, iv_of, nonce_len. unfold ap_make in M.
  apply bind_ok in M as (u & _ & M). apply bind_ok in M as (v & M & _).
  destruct (ap_salt p) as [s|]; cbn [optM] in M.
  - destruct (to_bytes4 s) as [b|e] eqn:E; [|discriminate].
    assert (Lb : zlen b = 4) by (apply to_bytes4_ok in E as (_ & ->); apply zlen_be_bytes).
    cbn [bind]. rewrite Lb. change (96 - 4 * 8) with 64.
    destruct (C84_nonce rnd k 64 S) as (K & _). destruct (K ltac:(lia)) as (n & E1 & _ & Ln).
    exists n, (b ++ n). rewrite E1. cbn [bind]. unfold zlen in Lb.
    split; [reflexivity|]. split; [lia|]. split; [reflexivity|]. split; [rewrite app_length; lia|].
    intros k' n' iv' _ I. apply Ok_inj in I. subst iv'. split; [apply app_inv_head|congruence].
  - destruct (C84_nonce rnd k 96 S) as (K & _). destruct (K ltac:(lia)) as (n & E1 & _ & Ln).
    exists n, n. rewrite E1. split; [reflexivity|]. split; [lia|]. split; [reflexivity|]. split; [lia|].
    intros k' n' iv' _ I. apply Ok_inj in I. subst iv'. tauto.
Qed.
Print Assumptions C84_iv.
(* AES-CCM of the cryptography package takes IVs of 7 to 13 bytes *)
Definition ccm_sizes (P : prims) : Prop := forall k iv pt aad,
  ~ (7 <= Z.of_nat (length iv) <= 13) -> pr_seal P CCM k iv pt aad = Err ValueError.
(* so of the sizes the documentation of nonce calls normal (96, 128, 256) only
   96 can be used with a CCM key *)
Theorem C84_ccm_nonce : forall P rnd k x bits n pt aad, source rnd -> ccm_sizes P -> ak_alg x = CCM ->
  key_nonce rnd k bits = Ok n -> ~ (56 <= bits < 112) -> aead_seal P x n pt aad = Err ValueError.
Proof.
  intros P rnd k x bits n pt aad S C A H N. destruct (C84_nonce rnd k bits S) as (K1 & K2).
  destruct (Z.neg_nonneg_cases bits) as [B|B]; [rewrite K2 in H by exact B; discriminate|].
  destruct (K1 B) as (n' & E & _ & L). assert (n' = n) by congruence. subst n'.
  unfold aead_seal. rewrite A, C by lia. reflexivity.
Qed.
Print Assumptions C84_ccm_nonce.

(** * New content keys *)
(* A new content key is 32 bytes of AES-GCM, its number and its salt are 32 bit
   numbers, each from a draw of its own; such parameters are never refused, so
   all that can fail is the wrapping. *)
Theorem C84_new_key : forall P rnd k seed w d, source rnd ->
  let p := mkAP (mkAK GCM (rnd k 32)) (be_value (rnd (k + 2)%nat 4)) (Some (be_value (rnd (k + 1)%nat 4))) d None in
  new_content_key P rnd k seed w d =
    match wrapper_create P w seed p with Ok wr => Ok (mkOI (Some wr) p) | Err e => Err e end /\
  length (ak_key (ap_key p)) = 32%nat /\ 0 <= ap_num p < 2 ^ 32 /\
  (exists s, ap_salt p = Some s /\ 0 <= s < 2 ^ 32) /\ ap_make p = Ok p.
Proof.
  intros P rnd k seed w d S p.
  assert (V : forall j, array_to_number (rnd j 4) = be_value (rnd j 4) /\ 0 <= be_value (rnd j 4) < 2 ^ 32).
  { intros j. destruct (S j 4 ltac:(lia)) as (L & B). rewrite <- be_value_spec by exact B. split; [reflexivity|].
    pose proof (array_to_number_bound _ B) as R. unfold zlen in R. rewrite L in R. exact R. }
  assert (M : ap_make p = Ok p).
  { unfold ap_make, p. cbn [ap_num ap_salt ap_kdf_salt optM].
    destruct (int_tlv_intro T_KEYNUM (be_value (rnd (k + 2)%nat 4))) as (t & ->); [unfold T_KEYNUM; lia|apply V|].
    cbn [bind]. rewrite to_bytes4_intro by apply V. reflexivity. }
  split; [|split; [|split; [apply V|split; [eexists; split; [reflexivity|apply V]|exact M]]]].
  - unfold new_content_key. destruct (C84_generate rnd k GCM 256 S) as (K & _).
    destruct (K (or_intror eq_refl)) as (x & m & -> & A1 & A2 & _). destruct x as [xa xk]. cbn [ak_alg ak_key] in A1, A2.
    subst xa xk. change (256 / 8) with 32. unfold urandom. change (0 <=? 4) with true. cbn [bind guard].
    destruct (V (k + 1)%nat) as (-> & _), (V (k + 2)%nat) as (-> & _). fold p.
    rewrite M. cbn [bind]. destruct (wrapper_create P w seed p); reflexivity.
  - cbn [p ap_key ak_key]. destruct (S k 32 ltac:(lia)) as (L & _). lia.
Qed.
Print Assumptions C84_new_key.
(* whoever has the private key gets salt and key back out of the wrapper *)
Theorem C84_unwrapped : forall P rnd k seed w sk d i, source rnd -> oaep_correct P -> rsa_pub P w = pr_pub P sk ->
  new_content_key P rnd k seed w d = Ok i ->
  exists wr c, oi_wrapper i = Some wr /\ w_key wr = Some c /\ rsa_keyid P w = Ok (w_keyid wr) /\
  forall a, a_keynum a = be_value (rnd (k + 2)%nat 4) -> a_mode a = Some 2 -> a_kdf a = d ->
    wrap_decrypt P (RPriv sk) c a = Ok (be_value (rnd (k + 1)%nat 4), rnd k 32).
Proof.
  intros P rnd k seed w sk d i S O W H. destruct (C84_new_key P rnd k seed w d S) as (E & L & _).
  set (p := mkAP _ _ _ _ _) in *. rewrite E in H. destruct (wrapper_create P w seed p) as [wr|e] eqn:Ew; [|discriminate].
  apply Ok_inj in H. subst i. unfold wrapper_create in Ew. inv_bind Ew. inv_bind Ew. inv_bind Ew. apply Ok_inj in Ew. subst wr.
  eexists _, _. split; [reflexivity|]. split; [reflexivity|]. split; [assumption|].
  intros x X1 X2 X3.
  assert (B : all_bytes (ak_key (ap_key p))) by (destruct (S k 32 ltac:(lia)) as (_ & B); apply all_bytes_ok; exact B).
  assert (F : exists md, fits_mode (ap_key p) md /\ a_mode x = Some md).
  { exists 2. split; [|exact X2]. right. left. split; [reflexivity|]. split; [exact L|reflexivity]. }
  match goal with Hw : wrap_create _ _ _ _ = Ok _ |- _ => destruct (C48_wrap_roundtrip P w sk seed p _ x O B W Hw X1 F X3) as (s & Es & R) end.
  cbn [p ap_salt] in Es. injection Es as <-. exact R.
Qed.
Print Assumptions C84_unwrapped.
(* RSA keys of up to 808 bits are too small to wrap a new content key *)
Theorem C84_small_rsa : forall P rnd k seed w kid, source rnd -> rsa_keyid P w = Ok kid ->
  (exists t, htt_tlv T_KEYID kid = Ok t) -> pr_bits P (rsa_pub P w) <= 808 ->
  new_content_key P rnd k seed w None = Err ValueError.
Proof.
  intros P rnd k seed w kid S I (ti & Ti) Z8. destruct (C84_new_key P rnd k seed w None S) as (E & L & N & (s & Hs & Rs) & M).
  set (p := mkAP _ _ _ _ _) in *. rewrite E. replace (wrapper_create P w seed p) with (@Err wrapper ValueError); [reflexivity|].
  symmetry. unfold wrapper_create, wrap_create. rewrite Hs. replace ((0 <=? s) && (s <=? 0xFFFFFFFF)) with true by lia.
  cbn [guard bind].
  rewrite (uint32_intro s Rs).
  cbn [bind]. rewrite I. cbn [bind].
  replace (mode_of_key (ap_key p)) with (Ok 2)
    by (symmetry; apply mode_fits; right; left; split; [reflexivity|split; [exact L|reflexivity]]).
  cbn [bind]. unfold wrap_label. cbn [p ap_kdf bind].
  destruct (int_tlv_intro T_KEYNUM (ap_num p)) as (t1 & ->); [unfold T_KEYNUM; lia|apply N|].
  destruct (int_tlv_intro T_AEADMode 2) as (t2 & ->); [unfold T_AEADMode; lia|lia|].
  rewrite Ti. destruct (int_tlv_intro T_HASH_ALG T_SHA_256) as (t3 & ->); [unfold T_HASH_ALG; lia|unfold T_SHA_256; lia|].
  cbn [bind]. unfold rsa_oaep_encrypt.
  replace (zlen _ <=? _) with false; [reflexivity|].
  rewrite zlen_app, zlen_be_bytes. unfold zlen. rewrite L. lia.
Qed.
Print Assumptions C84_small_rsa.

(** * Examples *)
Definition ex_rnd (k : nat) (n : Z) : bytes := repeat (Z.of_nat k mod 256) (Z.to_nat n).
Lemma ex_source : source ex_rnd.
Proof.
  intros k n N. unfold ex_rnd. rewrite repeat_length. split; [lia|]. apply Forall_forall. intros v V.
  apply repeat_spec in V. lia.
Qed.
Example C84_generate_ex : key_generate ex_rnd 5 CCM 128 = Ok (mkAK CCM (repeat 5 16)) /\
  key_generate ex_rnd 5 GCM 192 = Err ValueError /\ aeadkey_make GCM (repeat 5 24) = Ok (mkAK GCM (repeat 5 24)) /\
  mode_of_key (mkAK GCM (repeat 5 24)) = Err ValueError.
Proof. repeat split; vm_compute; reflexivity. Qed.
Example C84_nonce_ex : key_nonce ex_rnd 3 NONCE_BITS = Ok (repeat 3 12) /\ key_nonce ex_rnd 3 100 = Ok (repeat 3 12) /\
  key_nonce ex_rnd 3 (-1) = Err ValueError.
Proof. repeat split; vm_compute; reflexivity. Qed.
Example C84_iv_ex : let p := mkAP (mkAK GCM (repeat 5 16)) 7 (Some 258) None None in
  ap_make p = Ok p /\ impl_nonce ex_rnd 9 p = Ok (repeat 9 8) /\ iv_of p (repeat 9 8) = Ok ([0; 0; 1; 2] ++ repeat 9 8).
Proof. repeat split; vm_compute; reflexivity. Qed.
(* primitives that refuse such sizes *)
Definition strict : prims := mkPrims (pr_sha toy) (pr_crc toy) Z Z (pr_pub toy) (pr_der toy) (fun _ => 768)
  (pr_sign toy) (pr_verify toy) (pr_oaep_enc toy) (pr_oaep_dec toy)
  (fun a k iv pt aad => match a with
     | CCM => if (7 <=? zlen iv) && (zlen iv <=? 13) then pr_seal toy a k iv pt aad else Err ValueError
     | GCM => pr_seal toy a k iv pt aad end) (pr_open toy).
Example C84_ccm_ex : ccm_sizes strict /\ (exists c, aead_seal strict (mkAK CCM (repeat 5 16)) (repeat 3 12) [1] [] = Ok c) /\
  aead_seal strict (mkAK CCM (repeat 5 16)) (repeat 3 16) [1] [] = Err ValueError.
Proof.
  split; [|split; [eexists; vm_compute; reflexivity|vm_compute; reflexivity]].
  intros k iv pt aad H. cbn [strict pr_seal]. replace ((7 <=? zlen iv) && (zlen iv <=? 13)) with false by (unfold zlen; lia). reflexivity.
Qed.
Example C84_new_key_ex : exists i, new_content_key toy ex_rnd 1 [9] (RPriv (P := toy) 3) None = Ok i /\
  oi_params i = mkAP (mkAK GCM (repeat 1 32)) 50529027 (Some 33686018) None None.
Proof. eexists. split; vm_compute; reflexivity. Qed.
Example C84_small_ex : exists kid t, rsa_keyid strict (RPriv (P := strict) 3) = Ok kid /\ htt_tlv T_KEYID kid = Ok t /\
  new_content_key strict ex_rnd 1 [9] (RPriv (P := strict) 3) None = Err ValueError.
Proof. eexists _, _. split; [vm_compute; reflexivity|]. split; vm_compute; reflexivity. Qed.
