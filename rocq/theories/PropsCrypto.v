(* Properties of keys, signatures, packet validation and manifest encryption
   (C21-C23, C45-C51, C55, C56), for all cryptographic primitives. *)
From Coq Require Import ZArith List Bool Lia ZifyBool.
From Verif Require Import Py Tlv Float Core TlvProofs FloatProofs CoreProofs Spec PropsTlv PropsCore
  Flic WireSpec FlicProofs PropsFlic PropsWire Crypto CryptoProofs.
Import ListNotations.
Open Scope Z_scope.
Ltac Zify.zify_post_hook ::= Z.div_mod_to_equations.
Opaque tlv_make tlv_wire tlv_deserialize.

(** * Correctness of the primitives (hypotheses of the theorems below) *)
Definition sig_correct (P : prims) : Prop := forall sk d s,
  pr_sign P sk d = Ok s -> pr_verify P (pr_pub P sk) s d = true.
(* a signature fits one digest only (RSASSA-PKCS1-v1_5 recovers the digest
   from the signature) *)
Definition sig_recovers (P : prims) : Prop := forall pk s d d',
  pr_verify P pk s d = true -> pr_verify P pk s d' = true -> d = d'.
Definition aead_correct (P : prims) : Prop := forall a k iv pt aad c,
  pr_seal P a k iv pt aad = Ok c -> pr_open P a k iv c aad = Ok (Some pt).
Definition oaep_correct (P : prims) : Prop := forall sk label seed pt c,
  pr_oaep_enc P (pr_pub P sk) label seed pt = Ok c -> pr_oaep_dec P sk label c = Ok pt.

(* a small instance to run examples on *)
Definition toy_sum (l : list Z) : Z := fold_left Z.add l (zlen l) mod 256.
Definition toy : prims := mkPrims
  (fun b => repeat (toy_sum b) 32)
  (fun b c => (fold_left Z.add b c * 3 + zlen b) mod 2 ^ 32)
  Z Z (fun sk => sk) (fun pk => [pk mod 256]) (fun _ => 2048)
  (fun sk d => Ok (sk mod 256 :: d))
  (fun pk s d => beqb s (pk mod 256 :: d))
  (fun pk l seed pt => Ok (toy_sum l :: pt))
  (fun sk l c => match c with
                 | h :: pt => if h =? toy_sum l then Ok pt else Err ValueError
                 | [] => Err ValueError end)
  (fun a k iv pt aad => Ok (pt ++ repeat (toy_sum (k ++ iv ++ aad)) 16))
  (fun a k iv c aad => if beqb (zskip (zlen c - 16) c) (repeat (toy_sum (k ++ iv ++ aad)) 16)
                       then Ok (Some (ztake (zlen c - 16) c)) else Ok None).
Lemma toy_sig : sig_correct toy.
Proof. intros sk d s [= <-]. apply beqb_refl. Qed.
Lemma toy_sig_recovers : sig_recovers toy.
Proof.
  intros pk s d d' H H'. cbn [toy pr_verify] in *. apply beqb_spec in H, H'. congruence.
Qed.
Lemma toy_aead : aead_correct toy.
Proof.
  intros a k iv pt aad c H. cbn [toy pr_seal pr_open] in *. apply Ok_inj in H. subst c.
  generalize (toy_sum (k ++ iv ++ aad)). intros z. set (t := repeat z 16).
  assert (Hl : zlen (pt ++ t) - 16 = zlen pt) by (rewrite zlen_app; unfold t, zlen at 2; rewrite repeat_length; lia).
  rewrite ztake_app by exact Hl. rewrite zskip_app by exact Hl. rewrite beqb_refl. reflexivity.
Qed.
Lemma toy_oaep : oaep_correct toy.
Proof. intros sk l seed pt c [= <-]. cbn [toy pr_oaep_dec]. rewrite Z.eqb_refl. reflexivity. Qed.

(** * C22: what packet validation accepts *)
(* the bytes of the body and of the validation algorithm *)
Definition alg_bytes (a : valg) (b : bytes) : Prop := exists t, valg_tlv a = Ok t /\ b = tlv_wire t.
Definition accepted (P : prims) (ks : option (keystore P)) (p : packet) : Prop :=
  p_alg p = None \/
  (p_alg p = Some VCrc32c /\ exists body,
     body_wire (p_body p) = Ok body /\
     let crc := pr_crc P [0; 3; 0; 4; 0; 2; 0; 0] (pr_crc P body 0) in
     0 <= crc < 2 ^ 32 /\ p_vpl p = Some (be_bytes 4 crc)) \/
  (exists kid pk kl st, p_alg p = Some (VRsa kid pk kl st) /\
     (ks = None \/
      exists store key body alg sig,
        ks = Some store /\ get_rsa P store (QHash kid) = Ok key /\
        body_wire (p_body p) = Ok body /\ alg_bytes (VRsa kid pk kl st) alg /\
        p_vpl p = Some sig /\
        pr_verify P (rsa_pub P key) sig (pr_sha P (body ++ alg)) = true)).

Theorem C22_validation_accepts : forall P ks p,
  validate_packet P ks p = Ok tt <-> accepted P ks p.
Proof.
  intros P ks p. unfold validate_packet, accepted. destruct (p_alg p) as [[|kid pk kl st]|].
  - destruct valg_crc_wire as (t & Ht & Hw). rewrite Ht. cbn [bind]. rewrite Hw. split.
    + intros H. right; left. split; [reflexivity|]. inv_bind H. exists a. split; [assumption|].
      cbv zeta. inv_bind H. unfold crc_verify in *. destruct (p_vpl p) as [v|]; [|discriminate].
      inv_bind E0. inv_bind E0. apply Ok_inj in E0. subst a0. apply guard_ok in H. apply beqb_spec in H.
      apply uint32_ok in E1 as (R & -> & _). split; [exact R|]. rewrite <- H. reflexivity.
    + intros [H|[(_ & body & Hb & Hr & Hv)|(? & ? & ? & ? & H & _)]]; [discriminate| |discriminate].
      rewrite Hb, Hv. cbn [bind crc_verify]. unfold crc_of; cbn [fold_left].
      rewrite uint32_intro by exact Hr. cbn [bind].
      destruct (vpl_intro (be_bytes 4 (pr_crc P [0; 3; 0; 4; 0; 2; 0; 0] (pr_crc P body 0)))) as [u ->].
      * apply uint32_intro in Hr. apply uint32_ok in Hr. tauto.
      * rewrite zlen_be_bytes. lia.
      * cbn [bind]. rewrite beqb_refl. reflexivity.
  - split.
    + intros H. right; right. exists kid, pk, kl, st. split; [reflexivity|].
      destruct ks as [store|]; [right|left; reflexivity].
      inv_bind H. inv_bind H. inv_bind H. inv_bind H. unfold rsa_verify_payload in *.
      destruct (p_vpl p) as [v|]; [|discriminate]. apply Ok_inj in E2. subst a2. apply guard_ok in H.
      exists store, a, a0, (tlv_wire a1), v. unfold rsa_verify in H. cbn [concat] in H. rewrite app_nil_r in H.
      repeat split; auto. exists a1. auto.
    + intros [H|[(H & _)|(? & ? & ? & ? & [= <- <- <- <-] & [->|H])]]; try discriminate; [reflexivity|].
      destruct H as (store & key & body & alg & sg & -> & Hk & Hb & (t & Ht & ->) & Hv & Hs).
      rewrite Hk, Hb, Ht, Hv. cbn [bind rsa_verify_payload]. unfold rsa_verify. cbn [concat].
      rewrite app_nil_r, Hs. reflexivity.
  - split; [left; reflexivity|reflexivity].
Qed.
Theorem C22_unknown_key : forall P store p kid pk kl st,
  p_alg p = Some (VRsa kid pk kl st) -> (forall k, get_rsa P store (QHash kid) <> Ok k) ->
  validate_packet P (Some store) p = Err KeyIdNotFoundError.
Proof.
  intros P store p kid pk kl st Ha Hk. unfold validate_packet. rewrite Ha. cbn [get_rsa] in *.
  destruct (dict_get _ _ _) as [k|]; [exfalso; exact (Hk k eq_refl)|reflexivity].
Qed.
(* a packet object with a 32 bit checksum function: no other outcome *)
Theorem C22_validation_outcomes : forall P ks p w,
  packet_wire p = Ok w -> (forall b c, 0 <= pr_crc P b c < 2 ^ 32) ->
  validate_packet P ks p = Ok tt \/
  (exists store kid pk kl st, ks = Some store /\ p_alg p = Some (VRsa kid pk kl st) /\
     (forall k, get_rsa P store (QHash kid) <> Ok k) /\
     validate_packet P ks p = Err KeyIdNotFoundError) \/
  (~ accepted P ks p /\ validate_packet P ks p = Err ValueError).
Proof.
  intros P ks p w Hw Hc. apply packet_wire_ok in Hw as (h & c & b & l2 & l3 & _ & Hb & Hco & O2 & O3 & Hn & _ & _ & _).
  assert (D : forall r, validate_packet P ks p = guard r ValueError ->
    validate_packet P ks p = Ok tt \/ ~ accepted P ks p /\ validate_packet P ks p = Err ValueError).
  { intros [] E; cbn in E; [left; exact E|right]. split; [|exact E].
    rewrite <- C22_validation_accepts, E. discriminate. }
  pose proof (body_co _ _ Hco) as Hbw. rewrite <- Hb in Hbw.
  destruct (p_alg p) as [[|kid pk kl st]|] eqn:Ea.
  - destruct (p_vpl p) as [v|] eqn:Ev; [|discriminate].
    assert (exists r, validate_packet P ks p = guard r ValueError) as [r Hr].
    { unfold validate_packet. rewrite Ea, Hbw, Ev. destruct valg_crc_wire as (t & -> & Ht). cbn [bind].
      unfold crc_verify, crc_of. cbn [fold_left]. rewrite uint32_intro by apply Hc. cbn [bind].
      edestruct vpl_intro as [u ->]; [..|cbn [bind]; eexists; reflexivity].
      - match goal with |- bytes_ok (be_bytes 4 ?n) => assert (R : 0 <= n < 2^32) by apply Hc end.
        apply uint32_intro in R. apply uint32_ok in R. tauto.
      - rewrite zlen_be_bytes. lia. }
    destruct (D r Hr); auto.
  - destruct ks as [store|]; [|left; unfold validate_packet; rewrite Ea; reflexivity].
    destruct (p_vpl p) as [v|] eqn:Ev; [|discriminate]. destruct O2 as (u & Hu & _).
    destruct (get_rsa P store (QHash kid)) as [k|e] eqn:Ek.
    + assert (exists r, validate_packet P (Some store) p = guard r ValueError) as [r Hr].
      { unfold validate_packet. rewrite Ea, Hbw, Ev, Ek, Hu. cbn [bind rsa_verify_payload]. eexists; reflexivity. }
      destruct (D r Hr); auto.
    + right; left. exists store, kid, pk, kl, st. assert (N : forall k, get_rsa P store (QHash kid) <> Ok k) by congruence.
      repeat split; auto. apply (C22_unknown_key P store p kid pk kl st Ea N).
  - left. unfold validate_packet. rewrite Ea. reflexivity.
Qed.

(** * C21: signed packets validate *)
(* the store resolves the signer's key id to its public key *)
Definition knows (P : prims) (ks : option (keystore P)) (s : signer P) : Prop :=
  match s with
  | SCrc => True
  | SRsa sk => exists store kid k, ks = Some store /\ rsa_keyid P (RPriv sk) = Ok kid /\
                 get_rsa P store (QHash kid) = Ok k /\ rsa_pub P k = pr_pub P sk
  end.
Theorem C21_signed_packet_validates : forall P s now c p ks,
  sig_correct P -> sign_content P s now c = Ok p -> knows P ks s ->
  validate_packet P ks p = Ok tt.
Proof.
  intros P s now c p ks Hs H Hk. apply sign_content_ok in H as (a & tc & ta & v & Ha & Hc & Hta & Hv & Hb & Hpa & Hpv & _).
  apply C22_validation_accepts. unfold accepted. rewrite Hb, Hpa, Hpv. pose proof (body_co _ _ Hc) as Hbw.
  right. destruct s as [|sk]; cbn [signer_alg] in Ha.
  - left. inv_bind Ha. inv_bind Ha. inv_bind Ha. apply Ok_inj in Ha. subst a. split; [reflexivity|].
    exists (tlv_wire tc). split; [assumption|]. destruct valg_crc_wire as (t & Ht & Hw).
    assert (t = ta) as -> by congruence. cbn [signer_sign] in Hv. inv_bind Hv. inv_bind Hv. apply Ok_inj in Hv. subst a.
    apply uint32_ok in E2 as (R & -> & _). unfold crc_of in *. cbn [fold_left] in *. rewrite Hw in *. auto.
  - right. cbn [knows] in Hk. destruct Hk as (store & kid & k & -> & Hkid & Hg & Hp).
    inv_bind Ha. rewrite Hkid in Ha. cbn [bind] in Ha. inv_bind Ha. apply Ok_inj in Ha. subst a.
    exists kid, None, None, now. split; [reflexivity|]. right.
    exists store, k, (tlv_wire tc), (tlv_wire ta), v. repeat split; auto; [exists ta; auto|].
    cbn [signer_sign rsa_sign] in Hv. inv_bind Hv. inv_bind Hv. apply Ok_inj in Hv. subst a.
    inv_bind E1. apply array_B_ok in E1 as [_ E1]. subst v. cbn [concat] in E3. rewrite app_nil_r in E3.
    rewrite Hp. eapply Hs. exact E3.
Qed.
Theorem C21_added_key : forall P s now c p store name k store',
  sig_correct P -> sign_content P s now c = Ok p ->
  match s with SCrc => True | SRsa sk => rsa_pub P k = pr_pub P sk end ->
  add_rsa_key P store name k = Ok store' -> validate_packet P (Some store') p = Ok tt.
Proof.
  intros P s now c p store name k store' Hs H Hk Ha. eapply C21_signed_packet_validates; [assumption|exact H|].
  destruct s as [|sk]; [exact I|]. cbn [knows]. unfold add_rsa_key in Ha. inv_bind Ha. apply Ok_inj in Ha. subst store'.
  unfold rsa_keyid in *. cbn [rsa_pub]. rewrite Hk in E. exists (mkKS P (dict_set name k (ks_name P store)) (dict_set a k (ks_keyid P store)) (ks_aes P store)), a, k.
  repeat split; auto. cbn [get_rsa ks_keyid dict_set dict_get].
  replace (hashv_key_eqb a a) with true by (symmetry; apply hashv_key_eqb_spec; reflexivity). reflexivity.
Qed.
Lemma validate_norm P ks p : validate_packet P ks (packet_norm p) = validate_packet P ks p.
Proof.
  unfold validate_packet, packet_norm; cbn [p_alg p_body p_vpl]. destruct (p_body p); cbn [body_wire]; [rewrite co_tlv_norm|]; reflexivity.
Qed.
(* ... also for the receiver, who parses the bytes; signature times from
   November 2004 to January 2038 *)
Theorem C21_received_packet_validates : forall P s m now now' c p ks w,
  sig_correct P -> 1099511627776 <= m < 2147483648000 -> ts_of_msec m = Ok now -> wire_content c ->
  sign_content P s now c = Ok p -> knows P ks s -> packet_wire p = Ok w ->
  exists p', packet_deserialize now' w = Ok p' /\ same_packet p' p /\ validate_packet P ks p' = Ok tt.
Proof.
  intros P s m now now' c p ks w Hs Hm Hnow Hc H Hk Hw.
  pose proof (C21_signed_packet_validates P s now c p ks Hs H Hk) as Hv.
  apply sign_content_ok in H as (a & tc & ta & v & Ha & _ & _ & _ & Hb & Hpa & Hpv & Hcr).
  assert (Da : decodable_alg a).
  { destruct s as [|sk]; cbn [signer_alg] in Ha.
    - inv_bind Ha. inv_bind Ha. inv_bind Ha. apply Ok_inj in Ha. subst a. exact I.
    - inv_bind Ha. inv_bind Ha. inv_bind Ha. apply Ok_inj in Ha. subst a. cbn [decodable_alg]. repeat split.
      destruct (C20_timestamp_exact_now m Hm) as (f & F1 & F2). exists m. rewrite Hnow in F1. injection F1 as <-.
      repeat split; auto; [lia|]. change (2 ^ 64) with 18446744073709551616. lia. }
  assert (W : packet_wf p).
  { unfold create_signed_content_object in Hcr. inv_bind Hcr. inv_bind Hcr. inv_bind Hcr. inv_bind Hcr.
    apply Ok_inj in Hcr. set (p0 := mkPkt _ _ _ _) in Hcr.
    pose proof (tlv_len_ge a0). pose proof (tlv_len_ge a1). pose proof (tlv_len_ge a2).
    eapply (packet_created c p (Some a) (Some v)); try (subst p; reflexivity); auto; [congruence|].
    subst p. unfold p0. cbn [p_hdr hdr_content f_plen]. lia. }
  exists (packet_norm p). split; [apply packet_roundtrip; assumption|]. split; [eapply same_packet_norm; exact Hb|].
  rewrite validate_norm. exact Hv.
Qed.

(* from 19 January 2038 (2^31 seconds) the receiver can reject a correctly
   signed packet: the parsed signature time is re-encoded a millisecond earlier,
   so other bytes are verified *)
Theorem C21_received_packet_refuted : exists now c p w p' store,
  ts_of_msec 2147483648003 = Ok now /\ sig_correct toy /\ sign_content toy (SRsa (P:=toy) 7) now c = Ok p /\
  knows toy (Some store) (SRsa (P:=toy) 7) /\ packet_wire p = Ok w /\
  packet_deserialize now w = Ok p' /\ validate_packet toy (Some store) p = Ok tt /\
  validate_packet toy (Some store) p' = Err ValueError.
Proof.
  eexists. exists ex_co. do 3 eexists.
  exists (mkKS toy [] [(mkHash 1 (repeat 8 32), RPub (P:=toy) 7)] []).
  split; [vm_compute; reflexivity|]. split; [exact toy_sig|]. split; [vm_compute; reflexivity|].
  split. { cbn [knows]. do 3 eexists. split; [reflexivity|]. split; [vm_compute; reflexivity|]. split; reflexivity. }
  split; [vm_compute; reflexivity|]. split; [vm_compute; reflexivity|]. split; vm_compute; reflexivity.
Qed.
Example C21_ex : exists p, sign_content toy (SRsa (P:=toy) 7) (mkFl 6585057280515899 (-22)) ex_co = Ok p /\
  validate_packet toy None p = Ok tt /\ validate_packet toy (Some (ks_empty toy)) p = Err KeyIdNotFoundError.
Proof. eexists. split; [vm_compute; reflexivity|]. split; vm_compute; reflexivity. Qed.
Example C21_crc_ex : exists p, sign_content toy SCrc (mkFl 6585057280515899 (-22)) ex_co = Ok p /\
  validate_packet toy None p = Ok tt /\
  validate_packet toy None (mkPkt (p_hdr p) (p_body p) (p_alg p) (Some [0;0;0;0])) = Err ValueError.
Proof. eexists. split; [vm_compute; reflexivity|]. split; vm_compute; reflexivity. Qed.

(** * C23: altering a signed packet is detected *)
Definition same_content (a b : content) : Prop :=
  same_name (co_name a) (co_name b) /\ co_ptype a = co_ptype b /\ co_payload a = co_payload b /\
  co_expiry a = co_expiry b /\ co_fcid a = co_fcid b.
Lemma co_tlv_inj c d t : wire_content c -> wire_content d -> co_tlv c = Ok t -> co_tlv d = Ok t -> same_content c d.
Proof.
  intros Wc Wd Hc Hd. apply wire_content_wf in Wc, Wd. apply co_roundtrip in Hc, Hd; try assumption.
  assert (E : co_norm c = co_norm d) by congruence. unfold co_norm in E. injection E as E1 E2 E3 E4 E5.
  split; [apply same_name_of_norm; assumption|auto].
Qed.
(* the signed bytes are the concatenation of body and algorithm; they
   determine both *)
Theorem C23_signed_bytes : forall c1 c2 a1 a2 b1 b2 s1 s2,
  wire_content c1 -> wire_content c2 ->
  body_wire (BCO c1) = Ok b1 -> body_wire (BCO c2) = Ok b2 -> alg_bytes a1 s1 -> alg_bytes a2 s2 ->
  b1 ++ s1 = b2 ++ s2 -> b1 = b2 /\ s1 = s2 /\ same_content c1 c2 /\ same_alg a1 a2.
Proof.
  intros c1 c2 a1 a2 b1 b2 s1 s2 W1 W2 B1 B2 (t1 & T1 & ->) (t2 & T2 & ->) H.
  cbn [body_wire] in *. inv_bind B1. apply Ok_inj in B1. inv_bind B2. apply Ok_inj in B2. subst b1 b2.
  pose proof E as Oa. apply co_tlv_ok in Oa as [Oa _]. pose proof E0 as Ob. apply co_tlv_ok in Ob as [Ob _].
  apply tlv_wire_app_inj in H as [-> H]; [|assumption|assumption].
  pose proof T1 as O1. apply valg_tlv_ok in O1 as [O1 _]. pose proof T2 as O2. apply valg_tlv_ok in O2 as [O2 _].
  pose proof (tlv_wire_inj _ _ O1 O2 H) as <-. repeat split.
  all: try (eapply co_tlv_inj; eassumption). eapply valg_tlv_inj; eassumption.
Qed.
(* two packets that carry the same RSA signature and are both accepted under
   the same public key: equal, or a collision of the hash function *)
Theorem C23_rsa_tampering : forall P store p1 p2 c1 c2 k1 pk1 l1 t1 k2 pk2 l2 t2 key1 key2,
  sig_recovers P ->
  p_body p1 = BCO c1 -> p_body p2 = BCO c2 -> wire_content c1 -> wire_content c2 ->
  p_alg p1 = Some (VRsa k1 pk1 l1 t1) -> p_alg p2 = Some (VRsa k2 pk2 l2 t2) -> p_vpl p1 = p_vpl p2 ->
  get_rsa P store (QHash k1) = Ok key1 -> get_rsa P store (QHash k2) = Ok key2 -> rsa_pub P key1 = rsa_pub P key2 ->
  validate_packet P (Some store) p1 = Ok tt -> validate_packet P (Some store) p2 = Ok tt ->
  same_content c1 c2 /\ same_alg (VRsa k1 pk1 l1 t1) (VRsa k2 pk2 l2 t2) \/
  exists b1 b2 s1 s2, body_wire (BCO c1) = Ok b1 /\ body_wire (BCO c2) = Ok b2 /\
    alg_bytes (VRsa k1 pk1 l1 t1) s1 /\ alg_bytes (VRsa k2 pk2 l2 t2) s2 /\
    b1 ++ s1 <> b2 ++ s2 /\ pr_sha P (b1 ++ s1) = pr_sha P (b2 ++ s2).
Proof.
  intros P store p1 p2 c1 c2 k1 pk1 l1 t1 k2 pk2 l2 t2 key1 key2 R B1 B2 W1 W2 A1 A2 V G1 G2 K H1 H2.
  apply C22_validation_accepts in H1, H2. unfold accepted in *. rewrite A1, B1 in H1. rewrite A2, B2 in H2.
  destruct H1 as [H1|[(H1 & _)|(? & ? & ? & ? & [= <- <- <- <-] & [H1|H1])]]; try discriminate.
  destruct H2 as [H2|[(H2 & _)|(? & ? & ? & ? & [= <- <- <- <-] & [H2|H2])]]; try discriminate.
  destruct H1 as (st & ky1 & b1 & s1 & g1 & [= <-] & Q1 & E1 & S1 & V1 & Y1).
  destruct H2 as (st & ky2 & b2 & s2 & g2 & [= <-] & Q2 & E2 & S2 & V2 & Y2).
  assert (ky1 = key1) as -> by congruence. assert (ky2 = key2) as -> by congruence.
  assert (g1 = g2) as -> by congruence. rewrite K in Y1. pose proof (R _ _ _ _ Y1 Y2) as X.
  destruct (beqb (b1 ++ s1) (b2 ++ s2)) eqn:Eq.
  - apply beqb_spec in Eq. left.
    destruct (C23_signed_bytes c1 c2 _ _ b1 b2 s1 s2 W1 W2 E1 E2 S1 S2 Eq) as (_ & _ & U1 & U2). auto.
  - right. exists b1, b2, s1, s2. repeat split; auto. intros N. apply beqb_spec in N. congruence.
Qed.
(* with CRC32C: both bodies have the same checksum *)
Theorem C23_crc_tampering : forall P ks p1 p2, p_alg p1 = Some VCrc32c -> p_alg p2 = Some VCrc32c ->
  p_vpl p1 = p_vpl p2 -> validate_packet P ks p1 = Ok tt -> validate_packet P ks p2 = Ok tt ->
  exists b1 b2, body_wire (p_body p1) = Ok b1 /\ body_wire (p_body p2) = Ok b2 /\
    pr_crc P [0; 3; 0; 4; 0; 2; 0; 0] (pr_crc P b1 0) = pr_crc P [0; 3; 0; 4; 0; 2; 0; 0] (pr_crc P b2 0).
Proof.
  intros P ks p1 p2 A1 A2 V H1 H2. apply C22_validation_accepts in H1, H2. unfold accepted in *.
  rewrite A1 in H1. rewrite A2 in H2.
  destruct H1 as [H1|[(_ & b1 & B1 & R1 & V1)|(? & ? & ? & ? & [=] & _)]]; [discriminate|].
  destruct H2 as [H2|[(_ & b2 & B2 & R2 & V2)|(? & ? & ? & ? & [=] & _)]]; [discriminate|].
  exists b1, b2. repeat split; auto. apply be_bytes4_inj; auto. congruence.
Qed.
Example C23_ex : exists now p, sign_content toy (SRsa (P:=toy) 7) now ex_co = Ok p /\ wire_content ex_co /\
  validate_packet toy (Some (mkKS toy [] [(mkHash 1 (repeat 8 32), RPub (P:=toy) 7)] [])) p = Ok tt.
Proof.
  exists (mkFl 6585057280515899 (-22)). eexists. split; [vm_compute; reflexivity|]. split; [|vm_compute; reflexivity].
  split; [intros f [= <-]; apply C08_ex|]. intros n [= <-]. reflexivity.
Qed.

(** * C45: encrypted manifests decrypt to the same node *)
(* the mode numbers of the FLIC specification: 1, 2 = GCM with 128, 256 bit
   keys, 3, 4 = CCM *)
Definition fits_mode (k : aeadkey) (md : Z) : Prop :=
  (ak_alg k = GCM /\ length (ak_key k) = 16%nat /\ md = 1) \/
  (ak_alg k = GCM /\ length (ak_key k) = 32%nat /\ md = 2) \/
  (ak_alg k = CCM /\ length (ak_key k) = 16%nat /\ md = 3) \/
  (ak_alg k = CCM /\ length (ak_key k) = 32%nat /\ md = 4).
Lemma mode_fits k md : mode_of_key k = Ok md <-> fits_mode k md.
Proof.
  unfold mode_of_key, fits_mode, ak_bits, zlen, MODE_GCM_128, MODE_GCM_256, MODE_CCM_128, MODE_CCM_256.
  destruct (ak_alg k); split.
  - intros H. destruct (_ =? 128) eqn:E1; [apply Ok_inj in H; left; repeat split; auto; lia|].
    destruct (_ =? 256) eqn:E2; [|discriminate]. apply Ok_inj in H. right; left. repeat split; auto; lia.
  - intros [(_ & -> & ->)|[(_ & -> & ->)|[(X & _)|(X & _)]]]; try discriminate; reflexivity.
  - intros H. destruct (_ =? 128) eqn:E1; [apply Ok_inj in H; right; right; left; repeat split; auto; lia|].
    destruct (_ =? 256) eqn:E2; [|discriminate]. apply Ok_inj in H. right; right; right. repeat split; auto; lia.
  - intros [(X & _)|[(X & _)|[(_ & -> & ->)|(_ & -> & ->)]]]; try discriminate; reflexivity.
Qed.

Lemma manifest_of_ok c ct tag m : manifest_of (c, ct, tag) = Ok m ->
  m = mkMan (Some c) (MEnc ct) (Some tag) /\ exists w, man_wire m = Ok w.
Proof. unfold manifest_of. intros H. inv_bind H. apply Ok_inj in H. subst m. eauto. Qed.
Lemma create_aead_ok p nonce a : create_aead_data p nonce = Ok a ->
  exists md, mode_of_key (ap_key p) = Ok md /\ a = mkAead (ap_num p) nonce (Some md) (ap_kdf p).
Proof. unfold create_aead_data. intros H. inv_bind H. inv_bind H. apply Ok_inj in H. eauto. Qed.
Lemma aead_create_ok P p nonce n m : aead_create_manifest P p nonce n = Ok m ->
  exists md ct tag, mode_of_key (ap_key p) = Ok md /\
    encrypt_with_ctx P p n (CAead (mkAead (ap_num p) nonce (Some md) (ap_kdf p))) = Ok (ct, tag) /\
    m = mkMan (Some (CAead (mkAead (ap_num p) nonce (Some md) (ap_kdf p)))) (MEnc ct) (Some tag) /\
    exists w, man_wire m = Ok w.
Proof.
  unfold aead_create_manifest, aead_encrypt. intros H. inv_bind H. inv_bind E. inv_bind E. inv_bind E.
  destruct a2 as [ct tag]. apply Ok_inj in E. subst a. apply create_aead_ok in E0 as (md & Hm & ->).
  apply manifest_of_ok in H as [-> Hw]. exists md, ct, tag. auto.
Qed.
Lemma decrypt_of P p' p n c c' md ct tag is_mine :
  aead_correct P -> node_wf n -> mode_of_key (ap_key p) = Ok md ->
  ap_key p' = ap_key p -> ap_num p' = ap_num p -> ap_salt p' = ap_salt p ->
  ctx_aead c' = ctx_aead c -> ctx_tlv c' = ctx_tlv c ->
  a_keynum (ctx_aead c) = ap_num p -> a_mode (ctx_aead c) = Some md -> is_mine c' = true ->
  encrypt_with_ctx P p n c = Ok (ct, tag) ->
  decrypt_manifest_with P is_mine p' (mkMan (Some c') (MEnc ct) (Some tag)) =
    Ok (mkMan None (MNode (node_norm n)) None).
Proof.
  intros Hc Hn Hm K1 K2 K3 A1 A2 Hk Hmd Hi H. unfold decrypt_manifest_with; cbn [m_node m_ctx m_tag].
  rewrite Hi. cbn [guard bind].
  erewrite encrypt_decrypt; try eassumption; [|intros; apply Hc; assumption].
  cbn [bind]. apply encrypt_ok in H as (_ & tn & _ & _ & Htn & _).
  destruct (node_norm_man _ _ Htn) as [w ->]. reflexivity.
Qed.

Theorem C45_aead_roundtrip : forall P p nonce n m, aead_correct P -> node_wf n ->
  aead_create_manifest P p nonce n = Ok m ->
  (exists md ct tag, fits_mode (ap_key p) md /\
     m = mkMan (Some (CAead (mkAead (ap_num p) nonce (Some md) (ap_kdf p)))) (MEnc ct) (Some tag)) /\
  exists n', aead_decrypt_manifest P p m = Ok (mkMan None (MNode n') None) /\
    same_node n' n /\ n_pad n' = None.
Proof.
  intros P p nonce n m Hc Hn H. apply aead_create_ok in H as (md & ct & tag & Hm & He & -> & _).
  split; [exists md, ct, tag; split; [apply mode_fits; exact Hm|reflexivity]|].
  exists (node_norm n). split; [|split; [apply same_node_norm|reflexivity]].
  unfold aead_decrypt_manifest. eapply decrypt_of; try eassumption; reflexivity.
Qed.
(* ... and after the manifest has travelled as bytes *)
Theorem C45_received_manifest : forall P p nonce n m w, aead_correct P -> node_wf n ->
  0 <= ap_num p < 2 ^ 64 -> (forall k, ap_kdf p = Some k -> k_alg k < 2 ^ 64) ->
  aead_create_manifest P p nonce n = Ok m -> man_wire m = Ok w ->
  exists m' n', man_deserialize w = Ok m' /\
    aead_decrypt_manifest P p m' = Ok (mkMan None (MNode n') None) /\ same_node n' n.
Proof.
  intros P p nonce n m w Hc Hn Hnum Hkdf H Hw. apply aead_create_ok in H as (md & ct & tag & Hm & He & -> & _).
  apply man_roundtrip in Hw.
  - eexists. exists (node_norm n). split; [exact Hw|]. split; [|apply same_node_norm].
    unfold aead_decrypt_manifest, man_norm. cbn [m_ctx m_node m_tag option_map mnode_norm].
    eapply decrypt_of; try eassumption; try reflexivity.
  - split; cbn [m_ctx m_node mnode_wf]; [|exact I]. intros c [= <-]. cbn [ctx_wf]. split; [cbn [a_keynum]; lia|].
    split; [|exact Hkdf]. cbn [a_mode]. intros x [= <-]. apply mode_fits in Hm.
    change (2 ^ 64) with 18446744073709551616. unfold fits_mode in Hm. intuition lia.
Qed.

Definition ex_key (a : aalg) : aeadkey := mkAK a (repeat 5 16).
Example C45_ex : node_wf ex_node /\ forall a salt, In a [GCM; CCM] -> In salt [None; Some 77] ->
  exists m, aead_create_manifest toy (mkAP (ex_key a) 300 salt None None) (repeat 9 12) ex_node = Ok m.
Proof.
  split; [exact ex_node_wf|]. intros a salt [<-|[<-|[]]] [<-|[<-|[]]]; eexists; vm_compute; reflexivity.
Qed.

(** * C46: what the cipher is given, and what that determines *)
Definition spec_iv (salt : option Z) (nonce : bytes) : bytes :=
  match salt with None => nonce | Some s => be_bytes 4 s ++ nonce end.
(* the plaintext is the value of the node TLV, the associated data the whole
   security context TLV, the IV salt and nonce *)
Theorem C46_cipher_inputs : forall P p n c ct tag, ctx_wf c -> encrypt_with_ctx P p n c = Ok (ct, tag) ->
  exists tn, node_tlv n = Ok tn /\
  pr_seal P (ak_alg (ap_key p)) (ak_key (ap_key p)) (spec_iv (ap_salt p) (a_nonce (ctx_aead c)))
    (t_val tn) (w_ctx c) = Ok (ct ++ tag).
Proof.
  intros P p n c ct tag W H. apply encrypt_ok in H as (iv & tn & tc & Hiv & Htn & Htc & Hs). exists tn.
  split; [exact Htn|]. rewrite <- (ctx_wire c tc W Htc). replace (spec_iv _ _) with iv; [exact Hs|].
  unfold iv_of in Hiv. unfold spec_iv. destruct (ap_salt p); [|apply Ok_inj in Hiv; auto].
  inv_bind Hiv. apply Ok_inj in Hiv. apply to_bytes4_ok in E as [_ ->]. auto.
Qed.
Theorem C46_aad_determines_context : forall c1 c2 t1 t2, ctx_wf c1 -> ctx_wf c2 ->
  ctx_tlv c1 = Ok t1 -> ctx_tlv c2 = Ok t2 -> w_ctx c1 = w_ctx c2 -> same_ctx c1 c2.
Proof.
  intros c1 c2 t1 t2 W1 W2 H1 H2 E. rewrite <- (ctx_wire c1 t1 W1 H1), <- (ctx_wire c2 t2 W2 H2) in E.
  apply tlv_wire_inj in E; [|eapply ctx_tlv_tlv_ok; eassumption|eapply ctx_tlv_tlv_ok; eassumption]. subst t2.
  apply same_ctx_of_norm. apply ctx_roundtrip in H1, H2; try assumption. congruence.
Qed.
(* with one key and salt, distinct nonces give distinct IVs *)
Theorem C46_iv_injective : forall salt1 salt2 n1 n2,
  (salt1 = None <-> salt2 = None) ->
  (forall s, salt1 = Some s \/ salt2 = Some s -> 0 <= s < 2 ^ 32) ->
  spec_iv salt1 n1 = spec_iv salt2 n2 -> salt1 = salt2 /\ n1 = n2.
Proof.
  intros [s1|] [s2|] n1 n2 Hn Hs H; cbn [spec_iv] in H.
  - apply app_inj_len in H as [H ->]; [|rewrite !be_bytes_length; reflexivity]. split; [|reflexivity]. f_equal.
    apply be_bytes4_inj; auto.
  - destruct Hn as [_ Hn]. discriminate Hn. reflexivity.
  - destruct Hn as [Hn _]. discriminate Hn. reflexivity.
  - auto.
Qed.
(* one key used with and without salt: the IVs can coincide *)
Theorem C46_iv_mixed_refuted : exists salt nonce nonce', length nonce' = 12%nat /\ length nonce = 8%nat /\
  0 <= salt < 2 ^ 32 /\ spec_iv (Some salt) nonce = spec_iv None nonce'.
Proof. exists 1, (repeat 2 8), ([0;0;0;1] ++ repeat 2 8). repeat split; try lia. Qed.
Example C46_ex : exists c t ct tag, ctx_wf c /\ ctx_tlv c = Ok t /\
  encrypt_with_ctx toy (mkAP (ex_key GCM) 300 (Some 9) None None) ex_node c = Ok (ct, tag).
Proof.
  exists (CAead (mkAead 300 (repeat 9 8) (Some 1) None)). do 3 eexists. split.
  - split; [cbn; lia|]. split; [intros n [= <-]; reflexivity|intros; discriminate].
  - split; vm_compute; reflexivity.
Qed.

(** * C47: mismatched key number or mode *)
(* the result does not depend on the primitives: the cipher is not used *)
Theorem C47_key_number : forall P p m c ct tag,
  m_node m = MEnc ct -> m_ctx m = Some c -> m_tag m = Some tag -> a_keynum (ctx_aead c) <> ap_num p ->
  aead_decrypt_manifest P p m = Err (match c with CAead _ => ValueError | CRsa _ _ => TypeError end) /\
  decrypt_manifest_with P is_rsa_ctx p m = Err (match c with CAead _ => TypeError | CRsa _ _ => ValueError end).
Proof.
  intros P p m c ct tag H1 H2 H3 H. unfold aead_decrypt_manifest, decrypt_manifest_with. rewrite H1, H2, H3.
  unfold decrypt_node. replace (_ =? _) with false by lia. destruct c; split; reflexivity.
Qed.
Definition alg_of_mode (md : Z) : option aalg :=
  if (md =? 1) || (md =? 2) then Some GCM else if (md =? 3) || (md =? 4) then Some CCM else None.
Theorem C47_mode : forall P p m a ct tag,
  m_node m = MEnc ct -> m_ctx m = Some (CAead a) -> m_tag m = Some tag -> a_keynum a = ap_num p ->
  (forall md, a_mode a = Some md -> alg_of_mode md <> Some (ak_alg (ap_key p))) ->
  aead_decrypt_manifest P p m = Err (match a_mode a with Some _ => DecryptionError | None => AttributeError end).
Proof.
  intros P p m a ct tag H1 H2 H3 Hk H. unfold aead_decrypt_manifest, decrypt_manifest_with. rewrite H1, H2, H3.
  unfold decrypt_node. cbn [is_aead_ctx guard bind ctx_aead]. rewrite Hk, Z.eqb_refl. cbn [guard bind].
  unfold check_mode. cbn [ctx_aead]. destruct (a_mode a) as [md|]; [|reflexivity]. specialize (H md eq_refl).
  unfold alg_of_mode in H. unfold MODE_GCM_128, MODE_GCM_256, MODE_CCM_128, MODE_CCM_256.
  destruct (ak_alg (ap_key p)); destruct ((md =? 1) || (md =? 2)) eqn:E1; destruct ((md =? 3) || (md =? 4)) eqn:E2;
    cbn [guard bind]; try reflexivity; try congruence. lia.
Qed.
(* the key length part of the mode is not checked: a context announcing a
   128 bit key is decrypted with a 256 bit key *)
Theorem C47_key_length_refuted : exists p m n c ct tag, aead_correct toy /\
  m = mkMan (Some (CAead c)) (MEnc ct) (Some tag) /\ a_mode c = Some 1 /\ length (ak_key (ap_key p)) = 32%nat /\
  aead_decrypt_manifest toy p m = Ok (mkMan None (MNode n) None).
Proof.
  exists (mkAP (mkAK GCM (repeat 5 32)) 300 None None None). do 2 eexists.
  exists (mkAead 300 (repeat 9 12) (Some 1) None).
  exists (match encrypt_with_ctx toy (mkAP (mkAK GCM (repeat 5 32)) 300 None None None) ex_node
            (CAead (mkAead 300 (repeat 9 12) (Some 1) None)) with Ok (ct, _) => ct | _ => [] end).
  exists (match encrypt_with_ctx toy (mkAP (mkAK GCM (repeat 5 32)) 300 None None None) ex_node
            (CAead (mkAead 300 (repeat 9 12) (Some 1) None)) with Ok (_, t) => t | _ => [] end).
  split; [exact toy_aead|]. split; [reflexivity|]. split; [reflexivity|]. split; [reflexivity|].
  vm_compute. reflexivity.
Qed.
Example C47_ex : exists m ct tag c, aead_create_manifest toy (mkAP (ex_key GCM) 300 None None None) (repeat 9 12) ex_node = Ok m /\
  m_node m = MEnc ct /\ m_ctx m = Some c /\ m_tag m = Some tag /\ a_keynum (ctx_aead c) <> 301.
Proof. do 4 eexists. split; [vm_compute; reflexivity|]. split; [reflexivity|]. split; [reflexivity|]. split; [reflexivity|]. discriminate. Qed.

(** * C49: the key wrap label *)
Theorem C49_label_determines : forall n1 m1 k1 id1 h1 n2 m2 k2 id2 h2 l,
  n1 < 2 ^ 64 -> n2 < 2 ^ 64 -> h1 < 2 ^ 64 -> h2 < 2 ^ 64 ->
  (forall m, m1 = Some m \/ m2 = Some m -> m < 2 ^ 64) ->
  wrap_label n1 m1 k1 id1 h1 = Ok l -> wrap_label n2 m2 k2 id2 h2 = Ok l ->
  n1 = n2 /\ m1 = m2 /\ kdf_info k1 = kdf_info k2 /\ (k1 = None <-> k2 = None) /\ id1 = id2 /\ h1 = h2.
Proof.
  intros n1 m1 k1 id1 h1 n2 m2 k2 id2 h2 l N1 N2 A1 A2 M H1 H2.
  apply wrap_label_ok in H1 as (x1 & tk & tm & lk & ti & th & -> & I1 & K1 & X1 & O1 & D1 & Y1 & F1 & E1).
  apply wrap_label_ok in H2 as (x2 & tk' & tm' & lk' & ti' & th' & -> & I2 & K2 & X2 & O2 & D2 & Y2 & F2 & E2).
  rewrite E1 in E2. apply app_inv_head in E2. apply wires_inj in E2; [|assumption|assumption].
  cbn [app] in E2. injection E2 as <- <- E2.
  change [ti; th] with ([ti] ++ [th]) in E2. change [ti'; th'] with ([ti'] ++ [th']) in E2. rewrite !app_assoc in E2.
  apply app_inj_tail in E2 as [E2 <-]. apply app_inj_tail in E2 as [<- <-].
  split; [eapply int_inj; eassumption|].
  split; [f_equal; eapply int_inj; try eassumption; auto|].
  assert (Hi : kdf_info k1 = kdf_info k2).
  { destruct (kdf_info k1) as [i1|], (kdf_info k2) as [i2|]; cbn [opt_tlvs] in *; auto.
    - destruct O1 as (u & U & ->). destruct O2 as (u' & U' & [= <-]). apply octet_tlv_ok in U, U'. f_equal. 
      destruct U as (_ & _ & <-). destruct U' as (_ & _ & <-). reflexivity.
    - destruct O1 as (u & U & ->). discriminate.
    - destruct O2 as (u & U & ->). discriminate. }
  split; [exact Hi|]. split.
  { split; intros ->.
    - destruct k2 as [k|]; [|reflexivity]. cbn in Hi. destruct (I2 k eq_refl). symmetry; exact Hi.
    - destruct k1 as [k|]; [|reflexivity]. cbn in Hi. destruct (I1 k eq_refl). exact Hi. }
  split; [|eapply int_inj; eassumption]. apply htt_roundtrip in D1, D2. congruence.
Qed.
(* the KDF algorithm is not bound: contexts that differ in it share a label *)
Theorem C49_kdf_alg_refuted : exists n m id h i l, wrap_label n m (Some (mkKdf 1 i)) id h = Ok l /\
  wrap_label n m (Some (mkKdf 2 i)) id h = Ok l.
Proof. exists 5, (Some 1), (mkHash 1 (repeat 3 32)), 1, (Some [1;2]). eexists. split; vm_compute; reflexivity. Qed.
Example C49_ex : exists l l', wrap_label 5 (Some 1) (Some (mkKdf 1 (Some [4]))) (mkHash 1 (repeat 3 32)) 1 = Ok l /\
  wrap_label 5 (Some 1) None (mkHash 1 (repeat 3 32)) 1 = Ok l' /\ l <> l'.
Proof. do 2 eexists. split; [vm_compute; reflexivity|]. split; [vm_compute; reflexivity|]. discriminate. Qed.

(** * C48: RSA-OAEP key wrapping *)
Lemma rsa_keyid_pub P k k' : rsa_pub P k = rsa_pub P k' -> rsa_keyid P k = rsa_keyid P k'.
Proof. unfold rsa_keyid. intros ->. reflexivity. Qed.
Lemma fits_len k md : fits_mode k md -> zlen (ak_key k) = 16 \/ zlen (ak_key k) = 32.
Proof. unfold fits_mode, zlen. lia. Qed.
Theorem C48_wrap_roundtrip : forall P k sk seed p c a,
  oaep_correct P -> all_bytes (ak_key (ap_key p)) -> rsa_pub P k = pr_pub P sk ->
  wrap_create P k seed p = Ok c ->
  a_keynum a = ap_num p -> (exists md, fits_mode (ap_key p) md /\ a_mode a = Some md) -> a_kdf a = ap_kdf p ->
  exists salt, ap_salt p = Some salt /\ wrap_decrypt P (RPriv sk) c a = Ok (salt, ak_key (ap_key p)).
Proof.
  intros P k sk seed p c a Ho Hb Hk H A1 (md & A2 & A3) A4. unfold wrap_create in H.
  destruct (ap_salt p) as [salt|]; [|discriminate]. exists salt. split; [reflexivity|].
  inv_bind H. inv_bind H. inv_bind H. inv_bind H. inv_bind H. inv_bind H. inv_bind H. apply Ok_inj in H. subst a5.
  apply uint32_ok in E0 as (R & -> & B4). assert (a3 = md) as -> by (apply mode_fits in A2; congruence).
  unfold wrap_decrypt. rewrite (rsa_keyid_pub P (RPriv sk) k) by (cbn [rsa_pub]; congruence).
  rewrite E1, A1, A3, A4. cbn [bind]. rewrite E3. cbn [bind].
  unfold rsa_oaep_encrypt in E4. inv_bind E4. inv_bind E4. apply array_B_ok in E4 as [_ E4]. subst c.
  cbn [rsa_oaep_decrypt]. rewrite Hk in E6. rewrite (Ho _ _ _ _ _ E6). cbn [bind].
  rewrite array_B_intro by (rewrite bytes_ok_app; split; [exact B4|]; apply all_bytes_ok; exact Hb). cbn [bind].
  pose proof (fits_len _ _ A2). rewrite zlen_app, zlen_be_bytes. replace (_ <? 20) with false by lia. cbn [negb guard bind].
  rewrite ztake_app, zskip_app by (rewrite zlen_be_bytes; reflexivity). rewrite array_to_number_uint32 by exact R. reflexivity.
Qed.
(* wrapping needs a salt, and KDF info when there is KDF data *)
Theorem C48_wrap_needs_salt : forall P k seed p, ap_salt p = None -> wrap_create P k seed p = Err TypeError.
Proof. intros P k seed p H. unfold wrap_create. rewrite H. reflexivity. Qed.
Theorem C48_wrap_needs_kdf_info : forall P k seed p c x, ap_kdf p = Some x -> k_info x = None ->
  wrap_create P k seed p <> Ok c.
Proof.
  intros P k seed p c x Hx Hi H. unfold wrap_create in H. destruct (ap_salt p); [|discriminate].
  inv_bind H. inv_bind H. inv_bind H. inv_bind H. inv_bind H. unfold wrap_label in E3. rewrite Hx, Hi in E3. discriminate.
Qed.

(* A receiver with an RsaOaepDecryptor decrypts a sequence of manifests. *)
Fixpoint decrypt_all (P : prims) (ks : keystore P) (oc : ocache) (ms : list manifest) : list (res manifest) :=
  match ms with
  | [] => []
  | m :: ms => let '(r, ks', oc') := oaep_decrypt_manifest P ks oc m in r :: decrypt_all P ks' oc' ms
  end.
(* the sender's manifests: with or without the wrapped key, each with its own
   nonce and node; received directly or as bytes *)
Record job := mkJob { j_wrap : bool; j_nonce : bytes; j_node : node }.
Definition sent (P : prims) (i : oimpl) (j : job) (m : manifest) : Prop :=
  exists m0, oaep_create_manifest P i (j_wrap j) (j_nonce j) (j_node j) = Ok m0 /\
    (m = m0 \/ exists w, man_wire m0 = Ok w /\ man_deserialize w = Ok m).

Definition equiv (p' p : aparams) : Prop :=
  ap_key p' = ap_key p /\ ap_num p' = ap_num p /\ ap_salt p' = ap_salt p.
Definition oc_ok (oc : ocache) (p : aparams) : Prop :=
  forall id i, dict_get okey_eqb (id, ap_num p) oc = Some i -> equiv (oi_params i) p.
Lemma oaep_create_ok P i inc nonce n m : oaep_create_manifest P i inc nonce n = Ok m ->
  exists md ct tag, mode_of_key (ap_key (oi_params i)) = Ok md /\
    let c := CRsa (mkAead (ap_num (oi_params i)) nonce (Some md) (ap_kdf (oi_params i)))
               (if inc then oi_wrapper i else None) in
    encrypt_with_ctx P (oi_params i) n c = Ok (ct, tag) /\
    m = mkMan (Some c) (MEnc ct) (Some tag).
Proof.
  unfold oaep_create_manifest, oaep_encrypt. intros H. inv_bind H. inv_bind E. inv_bind E. inv_bind E.
  destruct a2 as [ct tag]. apply Ok_inj in E. subst a. apply create_aead_ok in E0 as (md & Hm & ->).
  apply manifest_of_ok in H as [-> _]. exists md, ct, tag. auto.
Qed.
Lemma okey_refl k : okey_eqb k k = true.
Proof.
  destruct k as [[h|] n]; unfold okey_eqb; cbn [fst snd]; rewrite Z.eqb_refl, ?andb_true_r; [|reflexivity].
  apply hashv_key_eqb_spec. reflexivity.
Qed.
Lemma okey_num a b : okey_eqb a b = true -> snd a = snd b.
Proof. unfold okey_eqb. intros H. apply andb_true_iff in H as [_ H]. lia. Qed.
Lemma oc_ok_set oc p id i : oc_ok oc p -> equiv (oi_params i) p -> oc_ok (dict_set (id, ap_num p) i oc) p.
Proof.
  intros H E id' i' Hi. cbn [dict_set dict_get] in Hi. destruct (okey_eqb _ _); [injection Hi as <-; exact E|eauto].
Qed.

Definition wrapper_ok (P : prims) (ks : keystore P) (sk : pr_SK P) (seed : bytes) (k : rsakey P) (p : aparams) (wr : wrapper) : Prop :=
  rsa_pub P k = pr_pub P sk /\ wrapper_create P k seed p = Ok wr /\
  get_rsa P ks (QKeyId (w_keyid wr)) = Ok (RPriv sk).

Lemma sent_ok P i j m : 0 <= ap_num (oi_params i) < 2 ^ 64 ->
  (forall k, ap_kdf (oi_params i) = Some k -> k_alg k < 2 ^ 64) ->
  (forall w, oi_wrapper i = Some w -> w_keylink w = None /\ wrapper_wf w) ->
  sent P i j m -> oaep_create_manifest P i (j_wrap j) (j_nonce j) (j_node j) = Ok m.
Proof.
  intros Hn Hk Hw (m0 & H & [->|(w & W & D)]); [exact H|].
  assert (m = m0) as ->; [|exact H].
  apply oaep_create_ok in H as (md & ct & tag & Hm & He & ->).
  apply man_roundtrip in W.
  - rewrite D in W. injection W as ->. unfold man_norm; cbn [m_ctx m_node m_tag option_map ctx_norm mnode_norm].
    do 3 f_equal. destruct (j_wrap j); [|reflexivity]. destruct (oi_wrapper i) as [w'|]; [|reflexivity]. cbn [option_map]. f_equal.
    destruct (Hw w' eq_refl) as [L _]. unfold wrapper_norm. rewrite L. destruct w'; cbn in *. congruence.
  - split; cbn [m_ctx m_node mnode_wf]; [|exact I]. intros c [= <-]. cbn [ctx_wf]. split.
    + split; [cbn [a_keynum]; lia|]. split; [|exact Hk]. cbn [a_mode]. intros x [= <-]. apply mode_fits in Hm.
      change (2 ^ 64) with 18446744073709551616. unfold fits_mode in Hm. intuition lia.
    + intros x Hx. destruct (j_wrap j); [|discriminate]. apply Hw. exact Hx.
Qed.
Lemma wrapper_create_ok P k seed p wr : wrapper_create P k seed p = Ok wr ->
  exists c, wrap_create P k seed p = Ok c /\ w_key wr = Some c /\ w_keylink wr = None /\ w_hashalg wr = Some 1 /\
    rsa_keyid P k = Ok (w_keyid wr).
Proof.
  unfold wrapper_create. intros H. inv_bind H. inv_bind H. inv_bind H. apply Ok_inj in H. subst wr.
  exists a. repeat split; auto.
Qed.
Lemma create_aead_key_ok k md : fits_mode k md -> create_aead_key (Some md) (ak_key k) = Ok k.
Proof.
  intros H. unfold create_aead_key, aeadkey_make, MODE_GCM_128, MODE_GCM_256, MODE_CCM_128, MODE_CCM_256.
  pose proof (fits_len _ _ H) as L. replace (_ || _ || _) with true by lia. cbn [guard bind].
  destruct k as [a b]; cbn [ak_key ak_alg] in *. unfold fits_mode in H. cbn [ak_alg ak_key] in H.
  destruct H as [(-> & _ & ->)|[(-> & _ & ->)|[(-> & _ & ->)|(-> & _ & ->)]]]; reflexivity.
Qed.
Lemma forall2_imp {A B} (R S : A -> B -> Prop) l l' : (forall a b, R a b -> S a b) -> Forall2 R l l' -> Forall2 S l l'.
Proof. intros H F. induction F; constructor; auto. Qed.
Section History.
Context (P : prims) (Ha : aead_correct P) (Ho : oaep_correct P) (p : aparams) (wr : option wrapper)
  (Hn : 0 <= ap_num p < 2 ^ 64).
Let i := mkOI wr p.
Lemma history_known ks oc p' jobs ms :
  Forall2 (fun j m => oaep_create_manifest P i (j_wrap j) (j_nonce j) (j_node j) = Ok m /\ node_wf (j_node j)) jobs ms ->
  get_aes_key P ks (ap_num p) = Ok p' -> equiv p' p -> oc_ok oc p ->
  Forall2 (fun j r => exists n', r = Ok (mkMan None (MNode n') None) /\ same_node n' (j_node j))
    jobs (decrypt_all P ks oc ms).
Proof using Ha Hn.
  intros H Hk He. revert oc. induction H as [|j m jobs ms [Hm Hw] _ IH]; intros oc Hoc; cbn [decrypt_all]; [constructor|].
  apply oaep_create_ok in Hm as (md & ct & tag & Hmd & Henc & ->). cbn [oi_params oi_wrapper i] in *.
  unfold oaep_decrypt_manifest; cbn [m_ctx]. set (w := if j_wrap j then wr else None) in *.
  unfold oaep_get_impl. cbn [ctx_okey].
  set (a := mkAead _ _ _ _) in *. unfold ctx_okey. cbn [a_keynum a]. set (id := match w with Some _ => _ | None => _ end).
  assert (D : forall q, equiv q p -> decrypt_manifest_with P is_rsa_ctx q (mkMan (Some (CRsa a w)) (MEnc ct) (Some tag)) =
     Ok (mkMan None (MNode (node_norm (j_node j))) None)).
  { intros q (Q1 & Q2 & Q3). eapply decrypt_of; try eassumption; reflexivity. }
  destruct (dict_get okey_eqb (id, ap_num p) oc) as [i0|] eqn:Eo.
  - rewrite D by (eapply Hoc; exact Eo). constructor; [|apply IH; exact Hoc]. eexists. split; [reflexivity|apply same_node_norm].
  - unfold oimpl_create. cbn [a_keynum a]. rewrite Hk. cbn [oi_params]. rewrite D by exact He.
    constructor; [|apply IH; apply oc_ok_set; [exact Hoc|exact He]]. eexists. split; [reflexivity|apply same_node_norm].
Qed.
End History.

(* The RSA private key alone suffices: the first manifest carries the wrapped
   key, every later one may leave it out; the receiver decrypts all of them. *)
Theorem C48_wrapped_history : forall P k sk seed p wr ks j0 m0 jobs ms,
  aead_correct P -> oaep_correct P -> all_bytes (ak_key (ap_key p)) ->
  0 <= ap_num p < 2 ^ 64 -> (forall x, ap_kdf p = Some x -> k_alg x < 2 ^ 64) ->
  rsa_pub P k = pr_pub P sk -> wrapper_create P k seed p = Ok wr ->
  get_rsa P ks (QKeyId (w_keyid wr)) = Ok (RPriv sk) ->
  (forall q, get_aes_key P ks (ap_num p) <> Ok q) ->
  j_wrap j0 = true ->
  Forall2 (fun j m => sent P (mkOI (Some wr) p) j m /\ node_wf (j_node j)) (j0 :: jobs) (m0 :: ms) ->
  Forall2 (fun j r => exists n', r = Ok (mkMan None (MNode n') None) /\ same_node n' (j_node j))
    (j0 :: jobs) (decrypt_all P ks [] (m0 :: ms)).
Proof.
  intros P k sk seed p wr ks j0 m0 jobs ms Ha Ho Hb Hn Hkdf Hk Hw Hg Hu Hj H.
  pose proof (wrapper_create_ok _ _ _ _ _ Hw) as (c & Hc & W1 & W2 & W3 & W4).
  assert (H' : Forall2 (fun j m => oaep_create_manifest P (mkOI (Some wr) p) (j_wrap j) (j_nonce j) (j_node j) = Ok m /\ node_wf (j_node j)) (j0 :: jobs) (m0 :: ms)).
  { eapply forall2_imp; [|exact H]. cbv beta. intros j m [S N]. split; [|exact N]. eapply sent_ok; [..|exact S]; auto.
    cbn [oi_wrapper]. intros w [= <-]. split; [exact W2|]. intros x Hx. rewrite W3 in Hx. injection Hx as <-. reflexivity. }
  clear H. inversion_clear H' as [|? ? ? ? [Hm Hwf] Hrest].
  cbn [decrypt_all]. pose proof Hm as Hm'. apply oaep_create_ok in Hm' as (md & ct & tag & Hmd & Henc & ->).
  rewrite Hj in *. cbn [oi_params oi_wrapper] in *. set (a := mkAead _ _ _ _) in *.
  unfold oaep_decrypt_manifest; cbn [m_ctx]. unfold oaep_get_impl. cbn [dict_get]. unfold oimpl_create, ctx_okey. cbn [a_keynum a].
  destruct (get_aes_key P ks (ap_num p)) as [q|e] eqn:Eq; [exfalso; exact (Hu q eq_refl)|].
  unfold unwrap_params. rewrite Hg. cbn [bind has_private guard]. rewrite W1.
  destruct (C48_wrap_roundtrip P k sk seed p c a Ho Hb Hk Hc eq_refl) as (salt & Hs & Hd);
    [exists md; split; [apply mode_fits; exact Hmd|reflexivity]|reflexivity|].
  rewrite Hd. cbn [bind a_mode a]. rewrite create_aead_key_ok by (apply mode_fits; exact Hmd). cbn [bind a_keynum a_kdf a].
  pose proof Hc as Hc'. unfold wrap_create in Hc'. rewrite Hs in Hc'. inv_bind Hc'. inv_bind Hc'. apply uint32_ok in E0 as (R & _).
  unfold ap_make. cbn [ap_num ap_salt ap_kdf_salt optM bind].
  destruct (int_tlv_intro T_KEYNUM (ap_num p)) as [tk ->]; [unfold T_KEYNUM; lia|lia|]. cbn [bind].
  rewrite to_bytes4_intro by exact R. cbn [bind oi_params].
  set (p' := mkAP _ _ _ _ _). assert (He : equiv p' p) by (repeat split; cbn; auto).
  assert (D : decrypt_manifest_with P is_rsa_ctx p' (mkMan (Some (CRsa a (Some wr))) (MEnc ct) (Some tag)) =
     Ok (mkMan None (MNode (node_norm (j_node j0))) None)).
  { destruct He as (Q1 & Q2 & Q3). eapply decrypt_of; try eassumption; reflexivity. }
  rewrite D. constructor; [eexists; split; [reflexivity|apply same_node_norm]|].
  apply (history_known P Ha p (Some wr) Hn _ _ p'); auto.
  - unfold get_aes_key, add_aes_key. cbn [ks_aes dict_set dict_get ap_num p']. rewrite Z.eqb_refl. reflexivity.
  - intros id i0 Hi. cbn [dict_set dict_get] in Hi. destruct (okey_eqb _ _); [|discriminate]. injection Hi as <-. exact He.
Qed.
(* The wrapped key goes into the manifest if it is asked for, and only then. *)
Theorem C48_wrapper_sent : forall P i include nonce n m,
  oaep_create_manifest P i include nonce n = Ok m ->
  exists a w, m_ctx m = Some (CRsa a w) /\ (include = true -> w = oi_wrapper i) /\ (include = false -> w = None).
Proof.
  intros P i include nonce n m H. apply oaep_create_ok in H as (md & ct & tag & _ & _ & ->).
  eexists _, _. split; [reflexivity|]. split; intros ->; reflexivity.
Qed.
Print Assumptions C48_wrapper_sent.
(* C48_ex below makes one manifest of each kind. *)
Definition ex_params : aparams := mkAP (ex_key GCM) 300 (Some 77) None None.
Example C48_ex : exists wr m1 m2 n1 n2, wrapper_create toy (RPub (P:=toy) 7) [] ex_params = Ok wr /\
  oaep_create_manifest toy (mkOI (Some wr) ex_params) true (repeat 1 8) ex_node = Ok m1 /\
  oaep_create_manifest toy (mkOI (Some wr) ex_params) false (repeat 2 8) ex_node = Ok m2 /\
  decrypt_all toy (mkKS toy [] [(mkHash 1 (repeat 8 32), RPriv (P:=toy) 7)] []) [] [m1; m2] =
    [Ok (mkMan None (MNode n1) None); Ok (mkMan None (MNode n2) None)].
Proof.
  do 5 eexists. split; [vm_compute; reflexivity|]. split; [vm_compute; reflexivity|]. split; [vm_compute; reflexivity|].
  vm_compute. reflexivity.
Qed.

(** * C50: the key store *)
Inductive ksop (P : prims) := AddRsa (name : bytes) (k : rsakey P) | AddAes (p : aparams).
Arguments AddRsa {P} name k.
Arguments AddAes {P} p.
Fixpoint run (P : prims) (ops : list (ksop P)) (ks : keystore P) : res (keystore P) :=
  match ops with
  | [] => Ok ks
  | AddRsa n k :: ops => ks' <- add_rsa_key P ks n k ;; run P ops ks'
  | AddAes p :: ops => run P ops (add_aes_key P ks p)
  end.
Lemma run_app P a b ks : run P (a ++ b) ks = (ks' <- run P a ks ;; run P b ks').
Proof.
  revert ks. induction a as [|[n k|p] a IH]; intros ks; cbn [app run bind]; [reflexivity| |apply IH].
  destruct (add_rsa_key P ks n k); cbn [bind]; [apply IH|reflexivity].
Qed.
(* what one addition does to each kind of lookup *)
Theorem C50_add_rsa : forall P ks n k ks', add_rsa_key P ks n k = Ok ks' ->
  get_rsa P ks' (QName n) = Ok k /\
  (forall m, m <> n -> get_rsa P ks' (QName m) = get_rsa P ks (QName m)) /\
  (exists h, rsa_keyid P k = Ok h /\ get_rsa P ks' (QKeyId h) = Ok k /\ get_rsa P ks' (QHash h) = Ok k /\
     get_rsa_pub_key P ks' h = Ok k /\
     forall h', h' <> h -> get_rsa P ks' (QKeyId h') = get_rsa P ks (QKeyId h') /\
       get_rsa P ks' (QHash h') = get_rsa P ks (QHash h') /\ get_rsa_pub_key P ks' h' = get_rsa_pub_key P ks h') /\
  (forall num, get_aes_key P ks' num = get_aes_key P ks num).
Proof.
  intros P ks n k ks' H. unfold add_rsa_key in H. inv_bind H. apply Ok_inj in H. subst ks'.
  unfold get_rsa, get_rsa_pub_key, get_aes_key. cbn [ks_name ks_keyid ks_aes dict_set dict_get].
  split; [rewrite beqb_refl; reflexivity|]. split.
  { intros m Hm. destruct (beqb n m) eqn:Eb; [apply beqb_spec in Eb; congruence|reflexivity]. }
  split; [|reflexivity]. exists a. split; [assumption|].
  replace (hashv_key_eqb a a) with true by (symmetry; apply hashv_key_eqb_spec; reflexivity).
  do 3 (split; [reflexivity|]). intros h' Hh.
  destruct (hashv_key_eqb a h') eqn:Eb; [apply hashv_key_eqb_spec in Eb; congruence|auto].
Qed.
Theorem C50_add_aes : forall P ks p,
  get_aes_key P (add_aes_key P ks p) (ap_num p) = Ok p /\
  (forall num, num <> ap_num p -> get_aes_key P (add_aes_key P ks p) num = get_aes_key P ks num) /\
  (forall q, get_rsa P (add_aes_key P ks p) q = get_rsa P ks q) /\
  (forall h, get_rsa_pub_key P (add_aes_key P ks p) h = get_rsa_pub_key P ks h).
Proof.
  intros P ks p. unfold get_aes_key, add_aes_key, get_rsa, get_rsa_pub_key; cbn [ks_name ks_keyid ks_aes dict_set dict_get].
  rewrite Z.eqb_refl. repeat split. intros num Hn. replace (ap_num p =? num) with false by lia. reflexivity.
Qed.
(* later additions under other names, key ids, numbers keep a binding *)
Lemma run_name P ops ks ks' n : run P ops ks = Ok ks' -> (forall k, ~ In (AddRsa n k) ops) ->
  get_rsa P ks' (QName n) = get_rsa P ks (QName n).
Proof.
  revert ks. induction ops as [|[m k|p] ops IH]; intros ks H N; cbn [run] in H.
  - apply Ok_inj in H. subst; reflexivity.
  - inv_bind H. rewrite (IH _ H); [|intros k' Hk; apply (N k'); right; exact Hk].
    apply C50_add_rsa in E as (_ & E & _). apply E. intros ->. apply (N k). left; reflexivity.
  - rewrite (IH _ H); [reflexivity|]. intros k' Hk; apply (N k'); right; exact Hk.
Qed.
Lemma run_keyid P ops ks ks' h : run P ops ks = Ok ks' -> (forall m k, In (AddRsa m k) ops -> rsa_keyid P k <> Ok h) ->
  get_rsa_pub_key P ks' h = get_rsa_pub_key P ks h.
Proof.
  revert ks. induction ops as [|[m k|p] ops IH]; intros ks H N; cbn [run] in H.
  - apply Ok_inj in H. subst; reflexivity.
  - inv_bind H. rewrite (IH _ H); [|intros m' k' Hk; apply (N m' k'); right; exact Hk].
    apply C50_add_rsa in E as (_ & _ & (h0 & Hh & _ & _ & _ & E) & _). apply E. intros ->.
    apply (N m k); [left; reflexivity|exact Hh].
  - rewrite (IH _ H); [reflexivity|]. intros m' k' Hk; apply (N m' k'); right; exact Hk.
Qed.
Lemma run_num P ops ks ks' n : run P ops ks = Ok ks' -> (forall p, In (AddAes p) ops -> ap_num p <> n) ->
  get_aes_key P ks' n = get_aes_key P ks n.
Proof.
  revert ks. induction ops as [|[m k|p] ops IH]; intros ks H N; cbn [run] in H.
  - apply Ok_inj in H. subst; reflexivity.
  - inv_bind H. rewrite (IH _ H); [|intros p' Hk; apply (N p'); right; exact Hk].
    apply C50_add_rsa in E as (_ & _ & _ & E). apply E.
  - rewrite (IH _ H); [|intros p' Hk; apply (N p'); right; exact Hk].
    apply C50_add_aes. intros E. apply (N p); [left; reflexivity|congruence].
Qed.
Lemma get_rsa_pub_eq P ks h : get_rsa P ks (QKeyId h) = get_rsa_pub_key P ks h /\ get_rsa P ks (QHash h) = get_rsa_pub_key P ks h.
Proof. split; reflexivity. Qed.

Theorem C50_latest_name : forall P pre post n k ks,
  run P (pre ++ AddRsa n k :: post) (ks_empty P) = Ok ks -> (forall k', ~ In (AddRsa n k') post) ->
  get_rsa P ks (QName n) = Ok k.
Proof.
  intros P pre post n k ks H N. rewrite run_app in H. inv_bind H. cbn [run] in H. inv_bind H.
  rewrite (run_name _ _ _ _ _ H N). apply C50_add_rsa in E0. tauto.
Qed.
Theorem C50_latest_keyid : forall P pre post n k h ks, rsa_keyid P k = Ok h ->
  run P (pre ++ AddRsa n k :: post) (ks_empty P) = Ok ks ->
  (forall m k', In (AddRsa m k') post -> rsa_keyid P k' <> Ok h) ->
  get_rsa P ks (QKeyId h) = Ok k /\ get_rsa P ks (QHash h) = Ok k /\ get_rsa_pub_key P ks h = Ok k.
Proof.
  intros P pre post n k h ks Hh H N. rewrite run_app in H. inv_bind H. cbn [run] in H. inv_bind H.
  destruct (get_rsa_pub_eq P ks h) as [-> ->]. rewrite (run_keyid _ _ _ _ _ H N).
  apply C50_add_rsa in E0 as (_ & _ & (h0 & H0 & _ & _ & G & _) & _). assert (h0 = h) as -> by congruence. auto.
Qed.
Theorem C50_latest_number : forall P pre post p ks,
  run P (pre ++ AddAes p :: post) (ks_empty P) = Ok ks ->
  (forall p', In (AddAes p') post -> ap_num p' <> ap_num p) -> get_aes_key P ks (ap_num p) = Ok p.
Proof.
  intros P pre post p ks H N. rewrite run_app in H. inv_bind H. cbn [run] in H.
  rewrite (run_num _ _ _ _ _ H N). apply C50_add_aes.
Qed.
Theorem C50_not_found : forall P ops ks, run P ops (ks_empty P) = Ok ks ->
  (forall n, (forall k, ~ In (AddRsa n k) ops) -> get_rsa P ks (QName n) = Err KeyIdNotFoundError) /\
  (forall h, (forall m k, In (AddRsa m k) ops -> rsa_keyid P k <> Ok h) ->
     get_rsa P ks (QKeyId h) = Err KeyIdNotFoundError /\ get_rsa P ks (QHash h) = Err KeyIdNotFoundError /\
     get_rsa_pub_key P ks h = Err KeyIdNotFoundError) /\
  (forall num, (forall p, In (AddAes p) ops -> ap_num p <> num) -> get_aes_key P ks num = Err KeyNumberNotFoundError).
Proof.
  intros P ops ks H. split; [|split].
  - intros n N. rewrite (run_name _ _ _ _ _ H N). reflexivity.
  - intros h N. destruct (get_rsa_pub_eq P ks h) as [-> ->]. rewrite (run_keyid _ _ _ _ _ H N). auto.
  - intros n N. rewrite (run_num _ _ _ _ _ H N). reflexivity.
Qed.
(* additions succeed: the digest of a key always fits a TLV *)
Theorem C50_add_succeeds : forall P ops ks, (forall b, all_bytes (pr_sha P b) /\ length (pr_sha P b) = 32%nat) ->
  exists ks', run P ops ks = Ok ks'.
Proof.
  intros P ops. induction ops as [|[n k|p] ops IH]; intros ks Hs; cbn [run]; [eauto| |auto].
  unfold add_rsa_key, rsa_keyid, hashv_tlv. cbn [h_alg h_val].
  destruct (Hs (pr_der P (rsa_pub P k))) as [B L].
  rewrite tlv_make_intro; [cbn [bind]; apply IH; exact Hs|]. apply all_bytes_ok in B.
  split; cbn [t_type t_val]; [unfold T_SHA_256; lia|]. split; [unfold tlv_length, zlen; cbn [t_val]; lia|exact B].
Qed.
Example C50_ex : exists ks, run toy [AddRsa [65] (RPub (P:=toy) 3); AddAes ex_params; AddRsa [65] (RPriv (P:=toy) 4)] (ks_empty toy) = Ok ks
  /\ get_rsa toy ks (QName [65]) = Ok (RPriv (P:=toy) 4) /\ get_rsa toy ks (QHash (mkHash 1 (repeat 4 32))) = Ok (RPub (P:=toy) 3).
Proof. eexists. split; [reflexivity|]. split; reflexivity. Qed.

(** * C51: the decryptor cache *)
Definition keynum (c : secctx) : Z := a_keynum (ctx_aead c).
(* the decryptor belongs to the context: the parameters the key store has for
   its key number, or the RSA decryptor *)
Definition right (P : prims) (ks : keystore P) (c : secctx) (d : decryptor) : Prop :=
  match c with
  | CAead a => exists p, d = DAead p /\ get_aes_key P ks (a_keynum a) = Ok p
  | CRsa _ _ => d = DOaep
  end.
(* the states a cache goes through while contexts are looked up successfully
   and manifests are decrypted (by whatever decryptor) *)
Inductive reach (P : prims) (ks : keystore P) : list secctx -> dcache P -> Prop :=
  | reach_init : reach P ks [] (dc_init P ks)
  | reach_get cs s c d s' : reach P ks cs s -> dc_get P s c = (Ok d, s') -> reach P ks (c :: cs) s'
  | reach_decrypt cs s d m r s' : reach P ks cs s -> dc_decrypt P s d m = (r, s') -> reach P ks cs s'.

Lemma oimpl_create_keeps P ks a w i ks' n p : oimpl_create P ks a w = Ok (i, ks') ->
  get_aes_key P ks n = Ok p -> get_aes_key P ks' n = Ok p.
Proof.
  unfold oimpl_create. destruct (get_aes_key P ks (a_keynum a)) as [q|e] eqn:E; intros H G; [injection H as <- <-; exact G|].
  inv_bind H. injection H as <- <-. unfold unwrap_params in E0. destruct w as [w|]; [|discriminate].
  inv_bind E0. inv_bind E0. destruct (w_key w); [|discriminate]. inv_bind E0. destruct a3 as [salt key]. inv_bind E0.
  unfold ap_make in E0. inv_bind E0. inv_bind E0. inv_bind E0. apply Ok_inj in E0. subst a0.
  destruct (C50_add_aes P ks (mkAP a3 (a_keynum a) (Some salt) (a_kdf a) None)) as (_ & X & _). rewrite X; [exact G|].
  cbn [ap_num]. intros ->. congruence.
Qed.
Lemma dc_decrypt_keeps P s d m r s' : dc_decrypt P s d m = (r, s') ->
  dc_num P s' = dc_num P s /\ dc_last P s' = dc_last P s /\
  forall n p, get_aes_key P (dc_ks P s) n = Ok p -> get_aes_key P (dc_ks P s') n = Ok p.
Proof.
  unfold dc_decrypt. destruct d; intros H; try (injection H as <- <-; auto).
  unfold oaep_decrypt_manifest in H. destruct (m_ctx m) as [[a|a w]|]; try (injection H as <- <-; auto).
  unfold oaep_get_impl in H. destruct (dict_get _ _ _) as [i|]; [injection H as <- <-; auto|].
  destruct (oimpl_create P (dc_ks P s) a w) as [[i ks']|e] eqn:E; injection H as <- <-; [|auto].
  cbn [dc_num dc_last dc_ks]. repeat split; auto. intros n p. eapply oimpl_create_keeps. exact E.
Qed.
Lemma right_keeps P ks ks' c d : (forall n p, get_aes_key P ks n = Ok p -> get_aes_key P ks' n = Ok p) ->
  right P ks c d -> right P ks' c d.
Proof. intros H. destruct c; cbn [right]; [|auto]. intros (p & -> & G). eauto. Qed.
Lemma right_kind P ks c c' d : right P ks c d -> keynum c = keynum c' -> is_aead_ctx c = is_aead_ctx c' -> right P ks c' d.
Proof. destruct c, c'; cbn; intros R N K; try discriminate; [|exact R]. destruct R as (p & -> & G). unfold keynum in N. cbn [ctx_aead] in N. rewrite N in G. eauto. Qed.
Definition consistent (cs : list secctx) : Prop := forall c c', In c cs -> In c' cs -> keynum c = keynum c' -> is_aead_ctx c = is_aead_ctx c'.
Lemma dc_get_right P cs s c d s' :
  (forall n, dc_num P s = Some n -> exists c0, In c0 cs /\ keynum c0 = n /\ right P (dc_ks P s) c0 (dc_last P s)) ->
  consistent (c :: cs) -> dc_get P s c = (Ok d, s') ->
  right P (dc_ks P s') c d /\ dc_ks P s' = dc_ks P s /\ dc_num P s' = Some (keynum c) /\ dc_last P s' = d.
Proof.
  intros I C H. unfold dc_get in H. fold (keynum c) in H.
  destruct (match dc_num P s with Some n => keynum c =? n | None => false end) eqn:E.
  - injection H as <- <-. destruct (dc_num P s) as [n|] eqn:En; [|discriminate].
    destruct (I n eq_refl) as (c0 & I0 & N0 & R0). split; [|repeat split; auto; f_equal; lia].
    eapply right_kind; [exact R0|lia|]. apply C; [right; exact I0|left; reflexivity|lia].
  - destruct (dc_create P (dc_ks P s) c) as [d'|e] eqn:Ec; [|discriminate]. injection H as <- <-.
    cbn [dc_ks dc_num dc_last]. repeat split. destruct c; cbn [dc_create right] in *.
    + inv_bind Ec. apply Ok_inj in Ec. eauto.
    + apply Ok_inj in Ec. auto.
Qed.
Lemma reach_inv P ks cs s : reach P ks cs s -> consistent cs ->
  forall n, dc_num P s = Some n -> exists c0, In c0 cs /\ keynum c0 = n /\ right P (dc_ks P s) c0 (dc_last P s).
Proof.
  induction 1 as [|cs s c d s' R IH G|cs s d m r s' R IH D]; intros C n Hn.
  - discriminate.
  - destruct (dc_get_right P cs s c d s') as (R' & E1 & E2 & E3); auto.
    { apply IH. intros x y X Y. apply C; right; assumption. }
    rewrite E2 in Hn. injection Hn as <-. exists c. split; [left; reflexivity|]. split; [reflexivity|]. rewrite E3. exact R'.
  - apply dc_decrypt_keeps in D as (D1 & D2 & D3). rewrite D1 in Hn. destruct (IH C n Hn) as (c0 & I0 & N0 & R0).
    exists c0. repeat split; auto. rewrite D2. eapply right_keeps; [exact D3|exact R0].
Qed.
Theorem C51_right_decryptor : forall P ks cs s c d s', reach P ks cs s -> consistent (c :: cs) ->
  dc_get P s c = (Ok d, s') -> right P (dc_ks P s') c d.
Proof.
  intros P ks cs s c d s' R C H. eapply dc_get_right; [|exact C|exact H].
  eapply reach_inv; [exact R|]. intros x y X Y. apply C; right; assumption.
Qed.
(* the two ways in which the full claim fails; in each the first context is an
   AEAD context with a known key *)
Definition ex_actx (n : Z) : secctx := CAead (mkAead n [1] (Some 1) None).
Theorem C51_after_failure_refuted : forall P p, exists ks c1 c2 s1 s2 s3 d1 e,
  ks = add_aes_key P (ks_empty P) p /\ keynum c1 = ap_num p /\ keynum c2 <> ap_num p /\
  dc_get P (dc_init P ks) c1 = (Ok d1, s1) /\ dc_get P s1 c2 = (Err e, s2) /\
  dc_get P s2 c2 = (Ok (DAead p), s3) /\ ~ right P (dc_ks P s3) c2 (DAead p).
Proof.
  intros P p. exists (add_aes_key P (ks_empty P) p), (ex_actx (ap_num p)), (ex_actx (ap_num p + 1)).
  assert (G1 : get_aes_key P (add_aes_key P (ks_empty P) p) (ap_num p) = Ok p) by apply C50_add_aes.
  assert (G2 : get_aes_key P (add_aes_key P (ks_empty P) p) (ap_num p + 1) = Err KeyNumberNotFoundError).
  { destruct (C50_add_aes P (ks_empty P) p) as (_ & X & _). rewrite X by lia. reflexivity. }
  do 5 eexists. do 3 (split; [first [reflexivity|cbn; lia]|]).
  split. { unfold dc_get, dc_init; cbn [dc_num dc_create ex_actx a_keynum ctx_aead dc_ks]. rewrite G1. reflexivity. }
  split. { unfold dc_get. cbn [dc_num dc_create ex_actx a_keynum ctx_aead dc_ks].
    replace (ap_num p + 1 =? ap_num p) with false by lia. rewrite G2. reflexivity. }
  split. { unfold dc_get. cbn [dc_num dc_last ex_actx a_keynum ctx_aead]. rewrite Z.eqb_refl. reflexivity. }
  cbn [right ex_actx a_keynum dc_ks]. rewrite G2. intros (q & _ & X). discriminate.
Qed.
Theorem C51_shared_number_refuted : forall P p, exists ks c1 c2 s1 s2 d1,
  ks = add_aes_key P (ks_empty P) p /\ keynum c1 = keynum c2 /\
  dc_get P (dc_init P ks) c1 = (Ok d1, s1) /\ dc_get P s1 c2 = (Ok (DAead p), s2) /\
  c2 = CRsa (ctx_aead c2) None /\
  forall m ct tag, m_ctx m = Some c2 -> m_node m = MEnc ct -> m_tag m = Some tag ->
    fst (dc_decrypt P s2 (DAead p) m) = Err TypeError.
Proof.
  intros P p. exists (add_aes_key P (ks_empty P) p), (ex_actx (ap_num p)), (CRsa (mkAead (ap_num p) [1] (Some 1) None) None).
  assert (G1 : get_aes_key P (add_aes_key P (ks_empty P) p) (ap_num p) = Ok p) by apply C50_add_aes.
  do 3 eexists. do 2 (split; [reflexivity|]).
  split. { unfold dc_get, dc_init; cbn [dc_num dc_create ex_actx a_keynum ctx_aead dc_ks]. rewrite G1. reflexivity. }
  split. { unfold dc_get. cbn [dc_num dc_last ex_actx a_keynum ctx_aead]. rewrite Z.eqb_refl. reflexivity. }
  split; [reflexivity|]. intros m ct tag H1 H2 H3. cbn [dc_decrypt fst]. unfold aead_decrypt_manifest, decrypt_manifest_with.
  rewrite H1, H2, H3. reflexivity.
Qed.
Example C51_ex : exists s d s', reach toy (add_aes_key toy (ks_empty toy) ex_params) [ex_actx 300] s /\
  consistent [CRsa (mkAead 301 [1] (Some 1) None) None; ex_actx 300] /\
  dc_get toy s (CRsa (mkAead 301 [1] (Some 1) None) None) = (Ok d, s').
Proof.
  do 3 eexists. split; [eapply reach_get; [apply reach_init|reflexivity]|]. split; [|reflexivity].
  intros c c' [<-|[<-|[]]] [<-|[<-|[]]]; cbn; intros; try reflexivity; discriminate.
Qed.

(** * C55: embedding the public key is impossible *)
Theorem C55_embed_public_key_refuted : forall P sk kl now kid t,
  rsa_keyid P (RPriv sk) = Ok kid -> htt_tlv T_KEYID kid = Ok t -> (exists u, ts_tlv T_SIGTIME now = Ok u) ->
  signer_alg P (SRsa sk) true kl now = Err AttributeError.
Proof.
  intros P sk kl now kid t Hk Ht (u & Hu). unfold signer_alg. rewrite Hu, Hk. cbn [bind valg_tlv]. rewrite Ht. reflexivity.
Qed.
Example C55_ex : signer_alg toy (SRsa (P:=toy) 7) true None (mkFl 6585057280515899 (-22)) = Err AttributeError.
Proof. vm_compute. reflexivity. Qed.

(** * C56: the content key is used directly, KDF data or not *)
Theorem C56_kdf_not_applied : forall P p p' n c c' ct tag ct' tag', ctx_wf c -> ctx_wf c' ->
  ap_key p' = ap_key p -> ap_salt p' = ap_salt p -> a_nonce (ctx_aead c') = a_nonce (ctx_aead c) ->
  encrypt_with_ctx P p n c = Ok (ct, tag) -> encrypt_with_ctx P p' n c' = Ok (ct', tag') ->
  exists iv pt, pr_seal P (ak_alg (ap_key p)) (ak_key (ap_key p)) iv pt (w_ctx c) = Ok (ct ++ tag) /\
    pr_seal P (ak_alg (ap_key p)) (ak_key (ap_key p)) iv pt (w_ctx c') = Ok (ct' ++ tag').
Proof.
  intros P p p' n c c' ct tag ct' tag' W W' K S N H H'. apply C46_cipher_inputs in H, H'; try assumption.
  destruct H as (t & T & H). destruct H' as (t' & T' & H'). assert (t' = t) as -> by congruence.
  rewrite K, S, N in H'. eauto.
Qed.
Example C56_ex : exists r r', encrypt_with_ctx toy ex_params ex_node (CAead (mkAead 300 [1] (Some 1) None)) = Ok r /\
  encrypt_with_ctx toy (mkAP (ex_key GCM) 300 (Some 77) (Some (mkKdf 1 (Some [3]))) None) ex_node
    (CAead (mkAead 300 [1] (Some 1) (Some (mkKdf 1 (Some [3]))))) = Ok r'.
Proof. do 2 eexists. split; vm_compute; reflexivity. Qed.

Print Assumptions C21_signed_packet_validates.
Print Assumptions C21_received_packet_validates.
Print Assumptions C22_validation_accepts.
Print Assumptions C22_validation_outcomes.
Print Assumptions C23_signed_bytes.
Print Assumptions C23_rsa_tampering.
Print Assumptions C45_aead_roundtrip.
Print Assumptions C45_received_manifest.
Print Assumptions C46_aad_determines_context.
Print Assumptions C47_mode.
Print Assumptions C48_wrapped_history.
Print Assumptions C49_label_determines.
Print Assumptions C50_latest_keyid.
Print Assumptions C51_right_decryptor.
Print Assumptions C55_embed_public_key_refuted.
Print Assumptions C56_kdf_not_applied.
