(* C67, C68, C69: the command line programs. *)
From Coq Require Import ZArith List Bool Lia ZifyBool.
From Verif Require Import Py Tlv WireSpec Float FloatProofs Core TlvProofs CoreProofs PropsCore Flic FlicProofs PropsFlic Crypto CryptoProofs
  PropsCrypto Optimizer OptimizerProofs Tree TreeSpec TreeProofs TreeFacts PropsOptimizer PropsTree ChunkProofs SizeProofs
  PropsChunk BuildProofs Store StoreSpec StoreProofs PropsStore Traversal TraversalSpec TraversalProofs EndSpec EndProofs
  ReadProofs PropsEnd PropsDir Uri PropsUri Apps.
Import ListNotations.
Open Scope Z_scope.
Opaque tlv_make tlv_wire tlv_deserialize.

(* ---------------- names and times from the command line ---------------- *)

(* what decodes as UTF-8 can be printed *)
Lemma utf8_enc1 c r : scalar c = true -> utf8 (enc1 c ++ r) = utf8 r.
Proof.
  unfold scalar, enc1. intros S.
  destruct (c <? 128) eqn:E1; [|destruct (c <? 2048) eqn:E2; [|destruct (c <? 65536) eqn:E3]]; cbn [app utf8].
  - unfold Traversal.cont. now replace ((0 <=? c) && (c <=? 127)) with true by lia.
  - assert (2 <= c / 64 < 32 /\ 0 <= c mod 64 < 64) as (A & B) by (Z.to_euclidean_division_equations; lia).
    unfold Traversal.cont. replace ((0 <=? 192 + c / 64) && (192 + c / 64 <=? 127)) with false by lia.
    replace ((194 <=? 192 + c / 64) && (192 + c / 64 <=? 223)) with true by lia.
    now replace ((128 <=? 128 + c mod 64) && (128 + c mod 64 <=? 191)) with true by lia.
  - assert (0 <= c / 4096 < 16 /\ 0 <= (c / 64) mod 64 < 64 /\ 0 <= c mod 64 < 64) as (A & B & C)
      by (Z.to_euclidean_division_equations; lia).
    assert (c = 4096 * (c / 4096) + 64 * ((c / 64) mod 64) + c mod 64) as D
      by (Z.to_euclidean_division_equations; lia).
    set (x := c / 4096) in *. set (y := (c / 64) mod 64) in *. set (z := c mod 64) in *. clearbody x y z.
    unfold Traversal.cont.
    replace ((0 <=? 224 + x) && (224 + x <=? 127)) with false by lia.
    replace ((194 <=? 224 + x) && (224 + x <=? 223)) with false by lia.
    replace ((224 <=? 224 + x) && (224 + x <=? 239)) with true by lia.
    replace ((128 <=? 128 + z) && (128 + z <=? 191)) with true by lia.
    destruct (224 + x =? 224) eqn:X1; destruct (224 + x =? 237) eqn:X2; try lia.
    + replace ((160 <=? 128 + y) && (128 + y <=? 191)) with true by lia. reflexivity.
    + replace ((128 <=? 128 + y) && (128 + y <=? 159)) with true by lia. reflexivity.
    + replace ((128 <=? 128 + y) && (128 + y <=? 191)) with true by lia. reflexivity.
  - assert (0 <= c / 262144 < 5 /\ 0 <= (c / 4096) mod 64 < 64 /\ 0 <= (c / 64) mod 64 < 64 /\ 0 <= c mod 64 < 64) as (A & B & C & D)
      by (Z.to_euclidean_division_equations; lia).
    assert (c = 262144 * (c / 262144) + 4096 * ((c / 4096) mod 64) + 64 * ((c / 64) mod 64) + c mod 64) as F
      by (Z.to_euclidean_division_equations; lia).
    set (w := c / 262144) in *. set (x := (c / 4096) mod 64) in *. set (y := (c / 64) mod 64) in *. set (z := c mod 64) in *.
    clearbody w x y z. unfold Traversal.cont.
    replace ((0 <=? 240 + w) && (240 + w <=? 127)) with false by lia.
    replace ((194 <=? 240 + w) && (240 + w <=? 223)) with false by lia.
    replace ((224 <=? 240 + w) && (240 + w <=? 239)) with false by lia.
    replace ((240 <=? 240 + w) && (240 + w <=? 244)) with true by lia.
    replace ((128 <=? 128 + z) && (128 + z <=? 191)) with true by lia.
    replace ((128 <=? 128 + y) && (128 + y <=? 191)) with true by lia.
    destruct (240 + w =? 240) eqn:X1; destruct (240 + w =? 244) eqn:X2; try lia.
    + replace ((144 <=? 128 + x) && (128 + x <=? 191)) with true by lia. reflexivity.
    + replace ((128 <=? 128 + x) && (128 + x <=? 143)) with true by lia. reflexivity.
    + replace ((128 <=? 128 + x) && (128 + x <=? 191)) with true by lia. reflexivity.
Qed.
Lemma utf8_decodes b t : utf8_decode b = Ok t -> utf8 b = true.
Proof.
  intros H. apply (utf8_decode_inv (length b)) in H as [A <-]; [|lia].
  induction t as [|c t IH]; [reflexivity|]. cbn [forallb flat_map] in *. apply andb_prop in A as [A1 A2].
  rewrite utf8_enc1 by assumption. auto.
Qed.

(* names from the command line *)
Lemma uri_plain u r : from_uri u = Ok r -> plain_name r /\
  forall n c, r = Some n -> In c n -> c_type c = T_NAMESEGMENT /\ utf8 (c_val c) = true.
Proof.
  destruct u as [u|].
  - intros H. apply C63_shape in H as (n & t & -> & _ & _ & F). rewrite Forall_forall in F. split.
    + intros m [= <-]. apply Forall_forall. intros c I. now apply F.
    + intros m c [= <-] I. apply F in I as (T & _ & s & D & _). apply utf8_decodes in D. auto.
  - intros [= <-]. split; [intros m [=]|intros n c [=]].
Qed.
Lemma locators_printable u l n c x : locators_from_uri u = Ok (Some l) -> In x l -> l_name x = Some n -> In c n ->
  c_type c = T_NAMESEGMENT /\ utf8 (c_val c) = true.
Proof.
  unfold locators_from_uri. destruct u as [u|]; [|discriminate]. intros H I. inv_bind H. inv_bind H.
  apply Ok_inj in H. injection H as <-. destruct I as [<-|[]]. cbn [l_name]. intros -> J.
  apply uri_plain in E as [_ E]. eapply E; [reflexivity|assumption].
Qed.

(* a time without fraction of a second survives being sent *)
Lemma scaled_exact m s : 0 < m < 2 ^ 52 -> 0 <= s -> fl_trunc (fl_round (m * 2 ^ s) (2 ^ s)) = m.
Proof.
  intros Hm Hs. pose proof (pow2_pos s Hs) as Ps. unfold fl_round. replace (m * 2 ^ s =? 0) with false by nia.
  pose proof (fl_exp_spec (m * 2 ^ s) (2 ^ s) ltac:(nia) ltac:(lia)) as E. cbn zeta in E.
  set (e := fl_exp (m * 2 ^ s) (2 ^ s)) in *. clearbody e.
  assert (e < 0).
  { destruct (Z.lt_ge_cases e 0) as [L|L]; [assumption|exfalso]. replace (Z.max 0 (- e)) with 0 in E by lia.
    replace (Z.max 0 e) with e in E by lia. pose proof (pow2_pos e L). change (2 ^ 0) with 1 in E. nia. }
  replace (Z.max 0 (- e)) with (- e) by lia. replace (Z.max 0 e) with 0 by lia.
  replace (m * 2 ^ s * 2 ^ (- e)) with (m * 2 ^ (- e) * 2 ^ s) by ring. change (2 ^ 0) with 1. rewrite Z.mul_1_r.
  rewrite rne_exact by assumption. unfold fl_trunc, fl_num, fl_den. cbn [fm fe].
  replace (Z.max 0 e) with 0 by lia. replace (Z.max 0 (- e)) with (- e) by lia. change (2 ^ 0) with 1. rewrite Z.mul_1_r.
  apply Z.div_mul. pose proof (pow2_pos (- e) ltac:(lia)). lia.
Qed.
Lemma seconds_kept m : 0 <= m < 2 ^ 52 -> m mod 1000 = 0 -> fl_trunc (fl_mul_Z (fl_div_Z (fl_of_Z m) 1000) 1000) = m.
Proof.
  intros Hm D. destruct (Z.eq_dec m 0) as [->|N]; [vm_compute; reflexivity|].
  destruct (div1000_spec m ltac:(change (2 ^ 53) with (2 * 2 ^ 52); lia)) as (q & s & Hs & -> & _ & B).
  assert (m = 1000 * (m / 1000)) as M by (pose proof (Z.div_mod m 1000); lia). set (n := m / 1000) in *.
  assert (q = n * 2 ^ s) as -> by (rewrite M in B; lia).
  unfold fl_mul_Z, fl_num, fl_den. cbn [fm fe]. replace (Z.max 0 (- s)) with 0 by lia. replace (Z.max 0 (- - s)) with s by lia.
  replace (n * 2 ^ s * 2 ^ 0 * 1000) with (m * 2 ^ s) by (rewrite M; change (2 ^ 0) with 1; ring).
  apply scaled_exact; lia.
Qed.
(* the expiry times given have no fraction of a second (and are before the
   year 140000) *)
Definition whole_seconds (m : option Z) : Prop := forall x, m = Some x -> 0 <= x < 2 ^ 52 /\ x mod 1000 = 0.
Lemma cli_time_kept m f : whole_seconds m -> cli_time m = Ok (Some f) -> wire_time f.
Proof.
  intros S H. destruct m as [m|]; [|discriminate]. destruct (S m eq_refl) as [B D].
  unfold cli_time in H. inv_bind H. inv_bind H. apply Ok_inj in H. injection H as ->.
  exists m. split; [change (2 ^ 64) with (4096 * 2 ^ 52); lia|]. split; [assumption|].
  unfold ts_tlv in E0. inv_bind E0. unfold ts_of_msec in E. destruct (fl_finite (fl_of_Z m)); [|discriminate].
  apply Ok_inj in E. subst f. unfold ts_msec in *.
  destruct (fl_finite (fl_mul_Z _ 1000)); [|discriminate]. f_equal. now apply seconds_kept.
Qed.

(* ---------------- the arguments of both sides ---------------- *)

Section Agree.
Context {P : prims}.
Variable hash : bytes -> Z.
(* the number the writer gives the encryption key *)
Definition number_of (c : cargs P) (key : bytes) : Z :=
  match ca_num c with Some n => n | None => hash key end.
(* The reader is told what it needs to know: the public key of the signature,
   and the encryption key with its number, mode and salt, or the private key
   of the wrapping key.  Its two RSA keys can be told apart. *)
Definition told (w r : cargs P) : Prop :=
  (forall k, ca_key w = Some k -> exists k', ca_key r = Some k' /\ rsa_pub P k' = rsa_pub P k) /\
  match ca_enc w, ca_wrap w with
  | Some b, _ => ca_enc r = Some b /\ ca_mode r = ca_mode w /\ ca_salt r = ca_salt w /\
      ca_num r = Some (number_of w b) /\ number_of w b < 2 ^ 64
  | None, Some k => ca_enc r = None /\ exists sk, ca_wrap r = Some (RPriv sk) /\ pr_pub P sk = rsa_pub P k
  | None, None => True
  end /\
  (forall k k', ca_key r = Some k -> ca_wrap r = Some k' -> rsa_keyid P k = rsa_keyid P k' -> rsa_pub P k = rsa_pub P k').
(* os.urandom(4) as a number, and a key of bytes *)
Definition fresh_ok (fr : fresh) : Prop :=
  0 <= fr_num fr < 2 ^ 32 /\ Forall (fun b => 0 <= b < 256) (fr_key fr).

Lemma keyid_pub k k' : rsa_pub P k = rsa_pub P k' -> rsa_keyid P k = rsa_keyid P k'.
Proof. unfold rsa_keyid. now intros ->. Qed.

(* what the reader's key store holds *)
Lemma keystore_rsa c ks : create_keystore P c = Ok ks ->
  (forall k h, ca_wrap c = Some k -> rsa_keyid P k = Ok h -> get_rsa P ks (QKeyId h) = Ok k) /\
  (forall k h, ca_key c = Some k -> rsa_keyid P k = Ok h ->
    get_rsa P ks (QHash h) = Ok k \/ exists k', ca_wrap c = Some k' /\ rsa_keyid P k' = Ok h /\ get_rsa P ks (QHash h) = Ok k').
Proof.
  unfold create_keystore. intros H. apply bind_ok in H as (s1 & _ & H). apply bind_ok in H as (s2 & E2 & H).
  unfold cli_add in *. split.
  - intros k h W K. rewrite W in H. unfold add_rsa_key in H. rewrite K in H. cbn [bind] in H. apply Ok_inj in H. subst ks.
    unfold get_rsa. cbn [ks_keyid]. now rewrite dict_set_same.
  - intros k h D K. rewrite D in E2. unfold add_rsa_key in E2. rewrite K in E2. cbn [bind] in E2. apply Ok_inj in E2. subst s2.
    destruct (ca_wrap c) as [k'|].
    + unfold add_rsa_key in H. apply bind_ok in H as (h' & K' & H). apply Ok_inj in H. subst ks. unfold get_rsa. cbn [ks_keyid].
      destruct (hashv_key_eqb h' h) eqn:Q.
      * apply hashv_key_eqb_spec in Q. subst h'. right. exists k'. rewrite dict_set_same. auto.
      * left. rewrite dict_set_other.
        -- now rewrite dict_set_same.
        -- intros Z. assert (hashv_key_eqb h' h = true) by (apply hashv_key_eqb_spec; auto). congruence.
    + apply Ok_inj in H. subst ks. left. unfold get_rsa. cbn [ks_keyid]. now rewrite dict_set_same.
Qed.
Lemma add_aes ks name k ks' : cli_add P ks name k = Ok ks' -> ks_aes P ks' = ks_aes P ks.
Proof.
  unfold cli_add. destruct k as [k|]; [|intros H; apply Ok_inj in H; now subst].
  unfold add_rsa_key. intros H. apply bind_ok in H as (h & _ & H). apply Ok_inj in H. now subst.
Qed.
Lemma ap_make_same p q : ap_make p = Ok q -> q = p /\ 0 <= ap_num p.
Proof.
  unfold ap_make. intros H. apply bind_ok in H as (t & T & H). apply bind_ok in H as (? & _ & H). apply bind_ok in H as (? & _ & H).
  apply Ok_inj in H. apply int_tlv_ok in T. intuition.
Qed.
Lemma cli_params_ok c k n p : cli_params P c k n = Ok p ->
  ap_key p = k /\ ap_num p = n /\ ap_salt p = ca_salt c /\ 0 <= n /\ forall d, ap_kdf p = Some d -> k_alg d < 2 ^ 64.
Proof.
  unfold cli_params. intros H. apply bind_ok in H as (d & D & H). apply ap_make_same in H as [-> N]. cbn in *.
  repeat split; auto. intros x ->. unfold cli_kdf in D. destruct (ca_kdf c) as [i|]; [|discriminate].
  apply bind_ok in D as (? & _ & D). apply Ok_inj in D. injection D as <-. destruct i; reflexivity.
Qed.
Lemma cli_aes_key_ok c k : cli_aes_key P c = Ok k ->
  k = match ca_enc c with None => None | Some b => Some (mkAK (ca_mode c) b) end.
Proof.
  unfold cli_aes_key. destruct (ca_enc c) as [b|]; [|intros H; apply Ok_inj in H; auto].
  intros H. apply bind_ok in H as (x & X & H). apply Ok_inj in H. unfold aeadkey_make in X.
  apply bind_ok in X as (? & _ & X). apply Ok_inj in X. now subst.
Qed.
Lemma keystore_aes c ks : create_keystore P c = Ok ks ->
  match ca_enc c with
  | None => forall n p, get_aes_key P ks n <> Ok p
  | Some b => exists n p, ca_num c = Some n /\ get_aes_key P ks n = Ok p /\ ap_key p = mkAK (ca_mode c) b /\
      ap_num p = n /\ ap_salt p = ca_salt c
  end.
Proof.
  unfold create_keystore. intros H. apply bind_ok in H as (s1 & E1 & H). apply bind_ok in H as (s2 & E2 & H).
  apply add_aes in E2, H. rewrite E2 in H. clear E2.
  unfold cli_aes_store in E1. unfold get_aes_key. rewrite H. clear H. apply bind_ok in E1 as (k & K & E1).
  apply cli_aes_key_ok in K. destruct (ca_enc c) as [b|]; subst k.
  - destruct (ca_num c) as [n|]; [|apply bind_ok in E1 as (? & _ & E1); discriminate].
    apply bind_ok in E1 as (p & K & E1). apply Ok_inj in E1. subst s1. apply cli_params_ok in K as (A & B & C & _).
    exists n, p. split; [reflexivity|]. unfold add_aes_key. cbn [ks_aes ks_empty dict_set dict_get].
    rewrite B, Z.eqb_refl. auto.
  - apply bind_ok in E1 as (? & _ & E1). apply Ok_inj in E1. subst s1. cbn. discriminate.
Qed.

Lemma wrapper_keyid k seed p wr : wrapper_create P k seed p = Ok wr -> rsa_keyid P k = Ok (w_keyid wr).
Proof.
  unfold wrapper_create. intros H. apply bind_ok in H as (? & _ & H). apply bind_ok in H as (kid & K & H).
  apply bind_ok in H as (? & _ & H). apply Ok_inj in H. now subst.
Qed.

(* a reader that was told can read what the writer encrypts and signs *)
Lemma told_opens fr c r ks e (o : opts P) : fresh_ok fr -> told c r -> create_keystore P r = Ok ks ->
  cli_encryptor P fr (default_num P hash c) = Ok e -> op_enc o = e -> can_open o (Some ks).
Proof.
  intros F (_ & T & _) K E Ho. unfold can_open. rewrite Ho. clear Ho.
  apply keystore_aes in K as KA. apply keystore_rsa in K as [KW _].
  unfold cli_encryptor in E. apply bind_ok in E as (k & KK & E). apply cli_aes_key_ok in KK.
  assert (ca_enc (default_num P hash c) = ca_enc c /\ ca_mode (default_num P hash c) = ca_mode c /\
    ca_wrap (default_num P hash c) = ca_wrap c /\ ca_salt (default_num P hash c) = ca_salt c /\
    forall b, ca_enc c = Some b -> ca_num (default_num P hash c) = Some (number_of c b)) as (A1 & A2 & A3 & A4 & A5).
  { unfold default_num, number_of. destruct (ca_enc c) as [b|] eqn:Eb; [destruct (ca_num c) eqn:En|]; cbn; repeat split; auto;
      intros ? [= <-]; auto. }
  rewrite A1, A2 in KK. rewrite A3 in E. clear A1 A2 A3. destruct (ca_enc c) as [b|] eqn:Eb.
  - destruct T as (T1 & T2 & T3 & T4 & T5). rewrite T1 in KA. destruct KA as (n & q & Q1 & Q2 & Q3 & Q4 & Q5).
    rewrite T4 in Q1. injection Q1 as <-. specialize (A5 b eq_refl). rewrite A5 in E. subst k.
    assert (HP : forall p, cli_params P (default_num P hash c) (mkAK (ca_mode c) b) (number_of c b) = Ok p ->
      params_ok p /\ has_key ks p).
    { intros p Hp. apply cli_params_ok in Hp as (P1 & P2 & P3 & P4 & P5). split.
      - split; [rewrite P2; auto|assumption].
      - exists q. rewrite P2. split; [assumption|]. rewrite P1, P3, A4, Q3, Q4, Q5, T2, T3. auto. }
    destruct (ca_wrap c) as [w|].
    + apply bind_ok in E as (p & Ep & E). apply bind_ok in E as (wr & Ew & E). apply Ok_inj in E. subst e. cbn [oi_params oi_wrapper].
      destruct (HP p Ep) as [HP1 HP2]. split; [assumption|]. split.
      * intros x [= <-]. eauto.
      * exists ks. split; [reflexivity|]. now left.
    + apply bind_ok in E as (p & Ep & E). apply Ok_inj in E. subst e. destruct (HP p Ep) as [HP1 HP2].
      split; [assumption|]. exists ks. auto.
  - subst k. destruct (ca_wrap c) as [w|].
    + destruct T as (T1 & sk & T2 & T3). rewrite T1 in KA.
      apply bind_ok in E as (d & Ed & E). apply bind_ok in E as (k & Ek & E). apply bind_ok in E as (p & Ep & E).
      apply bind_ok in E as (wr & Ew & E). apply Ok_inj in E. subst e. cbn [oi_params oi_wrapper].
      apply ap_make_same in Ep as [-> _]. destruct F as [F1 F2].
      assert (PK : params_ok (mkAP k (fr_num fr) (Some (fr_salt fr)) d None)).
      { split; cbn; [change (2 ^ 64) with (2 ^ 32 * 2 ^ 32); change (2 ^ 32) with 4294967296 in *; lia|].
        intros x ->. unfold cli_kdf in Ed. destruct (ca_kdf _) as [i|]; [|discriminate].
        apply bind_ok in Ed as (? & _ & D). apply Ok_inj in D. injection D as <-. destruct i; reflexivity. }
      split; [assumption|]. split; [intros x [= <-]; eauto|]. exists ks. split; [reflexivity|]. right. exists wr. split; [reflexivity|].
      split; [intros q; apply KA|]. split.
      * cbn. unfold aeadkey_make in Ek. apply bind_ok in Ek as (? & _ & Ek). apply Ok_inj in Ek. subst k. assumption.
      * exists w, sk, (fr_seed fr). split; [congruence|]. split; [assumption|]. apply KW; [assumption|].
        rewrite <- (wrapper_keyid _ _ _ _ Ew). apply keyid_pub. cbn. congruence.
    + apply Ok_inj in E. now subst e.
Qed.
Lemma told_verifies c r ks s : told c r -> create_keystore P r = Ok ks -> cli_signer P c = Ok s ->
  match s with
  | Some (SRsa sk) => exists store kid k, Some ks = Some store /\ rsa_keyid P (RPriv sk) = Ok kid /\
      get_rsa P store (QHash kid) = Ok k /\ rsa_pub P k = pr_pub P sk
  | _ => True
  end.
Proof.
  intros (T & _ & D) K S. unfold cli_signer in S. destruct (ca_key c) as [[sk|pk]|] eqn:Ek; [|discriminate|].
  - apply Ok_inj in S. subst s. destruct (T (RPriv sk) eq_refl) as (k' & Hk & Hp). cbn [rsa_pub] in Hp.
    assert (exists kid, rsa_keyid P k' = Ok kid) as (kid & Hkid).
    { unfold create_keystore in K. apply bind_ok in K as (s1 & _ & K). apply bind_ok in K as (s2 & K & _).
      unfold cli_add in K. rewrite Hk in K. unfold add_rsa_key in K. apply bind_ok in K as (kid & K & _). eauto. }
    exists ks, kid. apply keystore_rsa in K as [_ K]. destruct (K k' kid Hk Hkid) as [G|(w & Hw & Hwk & G)].
    + exists k'. split; [reflexivity|]. split; [|auto]. rewrite <- Hkid. apply keyid_pub. now rewrite Hp.
    + exists w. split; [reflexivity|]. split; [rewrite <- Hkid; apply keyid_pub; now rewrite Hp|]. split; [assumption|].
      rewrite <- (D k' w); auto. congruence.
  - apply Ok_inj in S. now subst s.
Qed.
End Agree.

(* ---------------- C67: manifest_writer ---------------- *)

Lemma setup_inv P hash fr now (a : wargs P) o d : writer_setup P hash fr now a = Ok (o, d) ->
  let c := default_num P hash (wa_c a) in
  from_uri (Some (wa_name a)) = Ok (op_name o) /\ op_type o = wa_schema a /\ cli_signer P c = Ok (op_signer o) /\
  from_uri (wa_mprefix a) = Ok (op_mprefix o) /\ from_uri (wa_dprefix a) = Ok (op_dprefix o) /\
  locators_from_uri (wa_mloc a) = Ok (op_mlocs o) /\ locators_from_uri (wa_dloc a) = Ok (op_dlocs o) /\
  cli_time (wa_rexp a) = Ok (op_rexp o) /\ cli_time (wa_mexp a) = Ok (op_mexp o) /\ cli_time (wa_dexp a) = Ok (op_dexp o) /\
  cli_encryptor P fr c = Ok (op_enc o) /\ op_max o = wa_max a /\ do_nested d = false /\ check_prefixes P a = Ok tt.
Proof.
  intros H. cbv zeta. unfold writer_setup in H. cbv zeta in H. apply bind_ok in H as (s & S & H).
  apply bind_ok in H as ([] & G & H). apply bind_ok in H as (o' & O & H). apply Ok_inj in H. injection H as <- <-.
  cbn [do_nested]. cbn [wa_c set_cargs] in S. set (c := default_num P hash (wa_c a)) in *.
  unfold writer_options in O. cbn [set_cargs wa_c wa_name wa_mprefix wa_dprefix wa_mloc wa_dloc wa_rexp wa_mexp wa_dexp wa_schema wa_degree wa_max] in O.
  repeat (apply bind_ok in O as (? & ? & O)). apply Ok_inj in O. subst o'. cbn.
  repeat (split; [assumption || reflexivity|]). assumption.
Qed.

(* the options a run makes meet what a build needs to be readable *)
Lemma setup_ready P hash fr now (a : wargs P) o d r ks :
  writer_setup P hash fr now a = Ok (o, d) -> fresh_ok fr -> told hash (wa_c a) r -> create_keystore P r = Ok ks ->
  whole_seconds (wa_rexp a) -> whole_seconds (wa_mexp a) -> whole_seconds (wa_dexp a) ->
  (ca_key (wa_c a) <> None -> wire_time now) ->
  plain_name (op_name o) /\ plain_prefixes o /\ printable_locators o /\ equipped o (Some ks) /\ sent_times o now.
Proof.
  intros H F T K W1 W2 W3 N. apply setup_inv in H. cbv zeta in H.
  destruct H as (A1 & A2 & A3 & A4 & A5 & A6 & A7 & A8 & A9 & A10 & A11 & _ & _ & _).
  pose proof (uri_plain _ _ A1) as [B1 B1']. pose proof (uri_plain _ _ A4) as [B4 _]. pose proof (uri_plain _ _ A5) as [B5 _].
  assert (S : cli_signer P (wa_c a) = Ok (op_signer o)).
  { rewrite <- A3. unfold cli_signer, default_num. destruct (ca_enc (wa_c a)), (ca_num (wa_c a)); reflexivity. }
  split; [assumption|]. split; [|split; [|split; [split|split]]].
  - unfold plain_prefixes. destruct (op_type o); auto.
  - unfold printable_locators. destruct (op_type o); auto. intros l n c I L J. enough (c_type c = T_NAMESEGMENT /\ utf8 (c_val c) = true) as [-> U] by (split; [auto|intros [[=]|[=]]]).
    unfold locators in I. destruct I as [<-|I].
    + cbn in L. eapply B1'; eassumption.
    + apply in_app_or in I as [I|I].
      * destruct (op_mlocs o) as [x|]; [|contradiction]. eapply locators_printable; eassumption.
      * destruct (op_dlocs o) as [x|]; [|contradiction]. eapply locators_printable; eassumption.
  - eapply told_opens; eauto.
  - pose proof (told_verifies hash (wa_c a) r ks _ T K S) as V. destruct (op_signer o) as [[|sk]|]; auto.
  - intros f [X|[X|X]]; rewrite X in *; (eapply cli_time_kept; [|eassumption]); assumption.
  - intros sk X. apply N. rewrite X in S. unfold cli_signer in S. destruct (ca_key (wa_c a)); [discriminate|]. discriminate S.
Qed.

(* Running manifest_writer for a hashed or prefixed tree and giving the root
   hash to a Traversal of the output directory, with the key store that
   create_keystore makes from matching arguments, writes back the file. *)
Theorem C67_writer_read_back : forall P hash fr clog rnd now (a : wargs P) data root s s' o dopt r ks nm uri_path ds later,
  log_ok clog -> wa_max a <= 2 ^ 24 -> aead_correct P -> oaep_correct P -> sig_correct P ->
  wa_schema a <> Segmented ->
  whole_seconds (wa_rexp a) -> whole_seconds (wa_mexp a) -> whole_seconds (wa_dexp a) ->
  (ca_key (wa_c a) <> None -> wire_time now) -> fresh_ok fr ->
  writer_setup P hash fr now a = Ok (o, dopt) -> ms_out s = [] ->
  writer_run P hash fr clog rnd now a data s = (Ok root, s') -> no_collisions P (ms_out s') ->
  told hash (wa_c a) r -> create_keystore P r = Ok ks -> from_uri (Some (wa_name a)) = Ok nm ->
  let d := dw_files (dir_puts P uri_path dopt (ms_out s') ds) in
  exists hr, packet_hash (pr_sha P) root = Ok hr /\ forall fuel, (length (ms_out s') <= fuel)%nat ->
    exists ts, traverse_arg P uri_path later d fuel nm (HVal hr) (tst_new P (Some ks)) = (Ok tt, ts) /\
      concat (ts_out ts) = data /\ ts_count ts = zlen (ms_out s').
Proof.
  intros P hash fr clog rnd now a data root s s' o dopt r ks nm uri_path ds later HL HM HA HO HS TY W1 W2 W3 N F SU S0 R NC T K NM.
  pose proof (setup_ready P hash fr now a o dopt r ks SU F T K W1 W2 W3 N) as (B1 & B2 & B3 & B4 & B5).
  pose proof (setup_inv _ _ _ _ _ _ _ SU) as I. cbv zeta in I. destruct I as (A1 & A2 & _ & _ & _ & _ & _ & _ & _ & _ & _ & A3 & A4 & _).
  unfold writer_run in R. rewrite SU in R. cbn [lift sbind] in R. rewrite A1 in NM. apply Ok_inj in NM. subst nm. cbv zeta.
  destruct (C58_directory_read_back P clog rnd now o 1 data s root s' (Some ks) uri_path dopt ds later) as (hr & H1 & H2);
    auto; try congruence; try lia.
  exists hr. split; [assumption|]. exact H2.
Qed.
Print Assumptions C67_writer_read_back.

(* A segmented tree is written, but the traversal of the directory fails after
   the root manifest. *)
Theorem C67_segmented_refuted : forall P hash fr clog rnd now (a : wargs P) data root s s' o dopt r ks nm uri_path ds later,
  log_ok clog -> wa_max a <= 2 ^ 24 -> aead_correct P -> oaep_correct P -> sig_correct P ->
  wa_schema a = Segmented ->
  whole_seconds (wa_rexp a) -> whole_seconds (wa_mexp a) -> whole_seconds (wa_dexp a) ->
  (ca_key (wa_c a) <> None -> wire_time now) -> fresh_ok fr ->
  writer_setup P hash fr now a = Ok (o, dopt) -> ms_out s = [] ->
  writer_run P hash fr clog rnd now a data s = (Ok root, s') -> no_collisions P (ms_out s') ->
  told hash (wa_c a) r -> create_keystore P r = Ok ks -> from_uri (Some (wa_name a)) = Ok nm ->
  let d := dw_files (dir_puts P uri_path dopt (ms_out s') ds) in
  exists hr, packet_hash (pr_sha P) root = Ok hr /\ forall fuel, (0 < fuel)%nat ->
    exists ts, traverse_arg P uri_path later d fuel nm (HVal hr) (tst_new P (Some ks)) = (Err ValueError, ts) /\ ts_out ts = [].
Proof.
  intros P hash fr clog rnd now a data root s s' o dopt r ks nm uri_path ds later HL HM HA HO HS TY W1 W2 W3 N F SU S0 R NC T K NM.
  pose proof (setup_ready P hash fr now a o dopt r ks SU F T K W1 W2 W3 N) as (B1 & B2 & B3 & B4 & B5).
  pose proof (setup_inv _ _ _ _ _ _ _ SU) as I. cbv zeta in I. destruct I as (A1 & A2 & _ & _ & _ & _ & _ & _ & _ & _ & _ & A3 & A4 & _).
  unfold writer_run in R. rewrite SU in R. cbn [lift sbind] in R. rewrite A1 in NM. apply Ok_inj in NM. subst nm. cbv zeta.
  destruct (C58_segmented_refuted P clog rnd now o 1 data s root s' (Some ks) uri_path dopt ds later) as (hr & H1 & H2);
    auto; try congruence; try lia.
  exists hr. split; [assumption|]. intros fuel L. destruct (H2 fuel L) as (ts & X & Y & _). exists ts. split; [exact X|exact Y].
Qed.
Print Assumptions C67_segmented_refuted.

(* The default for --key-num: with a negative hash nothing is written, and
   no reader can be told to use the default. *)
Theorem C67_negative_refuted : forall P hash fr clog rnd now (a : wargs P) data s b,
  ca_enc (wa_c a) = Some b -> ca_num (wa_c a) = None -> hash b < 0 ->
  exists e, writer_run P hash fr clog rnd now a data s = (Err e, s).
Proof.
  intros P hash fr clog rnd now a data s b E N H. unfold writer_run.
  destruct (writer_setup P hash fr now a) as [[o d]|e] eqn:S; [exfalso|exists e; reflexivity].
  apply setup_inv in S. cbv zeta in S. destruct S as (_ & _ & _ & _ & _ & _ & _ & _ & _ & _ & S & _).
  unfold default_num in S. rewrite E, N in S. unfold cli_encryptor in S. apply bind_ok in S as (k & K & S).
  apply cli_aes_key_ok in K. cbn [set_num ca_enc ca_num ca_wrap ca_mode] in *. rewrite E in K. subst k.
  destruct (ca_wrap (wa_c a)) as [w|]; apply bind_ok in S as (p & Q & _); apply cli_params_ok in Q as (_ & _ & _ & Q & _); lia.
Qed.
Theorem C67_default_refuted : forall P (r : cargs P) b, ca_enc r = Some b -> ca_num r = None ->
  exists e, create_keystore P r = Err e.
Proof.
  intros P r b E N. destruct (create_keystore P r) as [ks|e] eqn:K; [exfalso|eauto].
  apply keystore_aes in K. rewrite E in K. destruct K as (n & p & X & _). congruence.
Qed.
Print Assumptions C67_negative_refuted.
Print Assumptions C67_default_refuted.
(* Without a prefix for both, or with one for another schema, nothing is
   written. *)
Theorem C67_prefixes : forall P hash fr clog rnd now (a : wargs P) data s root s',
  writer_run P hash fr clog rnd now a data s = (Ok root, s') ->
  match wa_schema a with
  | Segmented => wa_mprefix a <> None /\ wa_dprefix a <> None
  | _ => wa_mprefix a = None /\ wa_dprefix a = None
  end.
Proof.
  intros P hash fr clog rnd now a data s root s' R. unfold writer_run in R.
  destruct (writer_setup P hash fr now a) as [[o d]|e] eqn:S; [|discriminate].
  apply setup_inv in S. cbv zeta in S. destruct S as (_ & _ & _ & _ & _ & _ & _ & _ & _ & _ & _ & _ & _ & S).
  unfold check_prefixes in S. destruct (wa_schema a); apply guard_ok in S; destruct (wa_mprefix a), (wa_dprefix a); cbn in S; try discriminate;
    split; congruence.
Qed.
Print Assumptions C67_prefixes.

(* ---------------- C68: manifest_reader ---------------- *)

(* Whatever is in the directory and whatever arguments are given, the program
   raises an exception and writes nothing. *)
Theorem C68_reader_refuted : forall P uri_path now d fuel (a : rargs P),
  exists e, reader_run P uri_path now d fuel a = (Err e, []).
Proof.
  intros P uri_path now d fuel a. unfold reader_run.
  destruct (create_keystore P (ra_c a)) as [k|e]; [|exists e; reflexivity]. cbn [bind].
  destruct (from_uri (Some (ra_name a))) as [n|e] eqn:U; [|exists e; reflexivity]. cbn [bind].
  apply C63_shape in U as (n' & _ & -> & _). unfold traverse_arg.
  destruct (ra_hash a) as [t|]; cbn [dir_get_arg].
  - exists TypeError. reflexivity.
  - destruct (dir_get uri_path now d (Some n') None) as [p|e] eqn:G; [now apply C54_by_name_refuted in G|].
    exists e. reflexivity.
Qed.
(* Which exception, once the keys and the name are read: TypeError with a hash
   restriction, NotImplementedError when the directory has no file for the
   name, and NameError for a file that can be read: one of another kind than a
   link, or a link to a packet that is there. *)
Theorem C68_errors : forall P uri_path now d fuel (a : rargs P) ks n,
  create_keystore P (ra_c a) = Ok ks -> from_uri (Some (ra_name a)) = Ok (Some n) ->
  (ra_hash a <> None -> reader_run P uri_path now d fuel a = (Err TypeError, [])) /\
  (ra_hash a = None -> forall pth, name_path uri_path n = Ok pth ->
    (dict_get path_eqb pth d = None -> reader_run P uri_path now d fuel a = (Err NotImplementedError, [])) /\
    forall w p c, dict_get path_eqb pth d = Some w -> packet_deserialize now w = Ok p -> p_body p = BCO c ->
      (co_ptype c <> Some PT_LINK \/
       exists b l h w' p', co_payload c = Some b /\ link_deserialize b = Ok l /\ l_digest l = Some h /\
         dict_get path_eqb (hash_path false h) d = Some w' /\ packet_deserialize now w' = Ok p') ->
      reader_run P uri_path now d fuel a = (Err NameError, [])).
Proof.
  intros P uri_path now d fuel a ks n K U. unfold reader_run. rewrite K, U. cbn [bind]. unfold traverse_arg. split.
  - destruct (ra_hash a); [|intros []; reflexivity]. intros _. reflexivity.
  - intros -> pth N. cbn [dir_get_arg dir_get]. unfold get_by_name, get_by_link, load. rewrite N. cbn [bind]. split.
    + intros ->. reflexivity.
    + intros w p c -> E B H. rewrite E. cbn [bind]. rewrite B. destruct (is_link c) eqn:L; [|reflexivity].
      destruct H as [H|(b & l & h & w' & p' & -> & -> & Hd & Hw & Hp)].
      * exfalso. apply H. unfold is_link in L. destruct (co_ptype c) as [t|]; cbn in L; [|discriminate]. f_equal. lia.
      * cbn [bind]. rewrite Hd, Hw, Hp. reflexivity.
Qed.
Print Assumptions C68_reader_refuted.
Print Assumptions C68_errors.

(** * C69: what packet_reader shows *)
(* Verified is exactly what the PacketValidator of the readers accepts, for a
   packet that has something to verify ... *)
Theorem C69_verified : forall P ks p,
  utils_validate P ks p = Ok true <-> p_alg p <> None /\ validate_packet P (Some ks) p = Ok tt.
Proof.
  intros P ks p. unfold utils_validate, validate_packet. destruct (p_alg p) as [[|kid pk kl st]|].
  - destruct (body_wire (p_body p)) as [b|]; cbn [bind]; [|split; [discriminate|intros [_ ?]; discriminate]].
    destruct (valg_tlv VCrc32c) as [a|]; cbn [bind]; [|split; [discriminate|intros [_ ?]; discriminate]].
    destruct (crc_verify P [b; tlv_wire a] (p_vpl p)) as [[]|]; cbn [bind guard]; (split; [try discriminate|intros [_ ?]; try discriminate]); auto.
    intros _. split; [discriminate|reflexivity].
  - destruct (get_rsa P ks (QHash kid)) as [k|]; cbn [bind]; [|split; [discriminate|intros [_ ?]; discriminate]].
    destruct (body_wire (p_body p)) as [b|]; cbn [bind]; [|split; [discriminate|intros [_ ?]; discriminate]].
    destruct (valg_tlv (VRsa kid pk kl st)) as [a|]; cbn [bind]; [|split; [discriminate|intros [_ ?]; discriminate]].
    destruct (rsa_verify_payload P k [b; tlv_wire a] (p_vpl p)) as [[]|]; cbn [bind guard];
      (split; [try discriminate|intros [_ ?]; try discriminate]); auto.
    intros _. split; [discriminate|reflexivity].
  - split; [discriminate|intros [[] _]; reflexivity].
Qed.
(* ... and not verified, but shown all the same, are the packets without
   validation and those signed with a key the store does not have, which the
   PacketValidator refuses. *)
Theorem C69_unverified : forall P ks p,
  utils_validate P ks p = Ok false <->
  p_alg p = None \/ exists kid pk kl st, p_alg p = Some (VRsa kid pk kl st) /\ forall k, get_rsa P ks (QHash kid) <> Ok k.
Proof.
  intros P ks p. unfold utils_validate. destruct (p_alg p) as [[|kid pk kl st]|].
  - split; [|intros [|(? & ? & ? & ? & ? & _)]; discriminate].
    intros H. apply bind_ok in H as (b & _ & H). apply bind_ok in H as (a & _ & H). apply bind_ok in H as (r & _ & H).
    apply bind_ok in H as (? & _ & H). discriminate.
  - destruct (get_rsa P ks (QHash kid)) as [k|] eqn:G.
    + split; [|intros [|(? & ? & ? & ? & [= <- <- <- <-] & H)]; [discriminate|now apply H in G]].
      intros H. apply bind_ok in H as (b & _ & H). apply bind_ok in H as (a & _ & H). apply bind_ok in H as (r & _ & H).
      apply bind_ok in H as (? & _ & H). discriminate.
    + split; [intros _|auto]. right. exists kid, pk, kl, st. split; [reflexivity|]. congruence.
  - tauto.
Qed.
Print Assumptions C69_verified.
Print Assumptions C69_unverified.

Lemma utils_norm P ks p : utils_validate P ks (packet_norm p) = utils_validate P ks p.
Proof.
  unfold utils_validate, packet_norm; cbn [p_alg p_body p_vpl]. destruct (p_body p); cbn [body_wire]; [rewrite co_tlv_norm|]; reflexivity.
Qed.
(* a packet file as packet_reader sees it *)
Lemma read_packet P c ks p w co later : create_keystore P c = Ok ks -> packet_wf p -> packet_wire p = Ok w -> p_body p = BCO co ->
  packet_read P c later w =
  (v <- utils_validate P ks p ;;
   if is_manifest co then
     m <- man_from_content co ;;
     if is_encrypted m then d <- utils_decrypt P ks m ;; Ok (mkShown (packet_norm p) v (Some d))
     else Ok (mkShown (packet_norm p) v None)
   else Ok (mkShown (packet_norm p) v None)).
Proof.
  intros K W H B. unfold packet_read. rewrite K. cbn [bind]. rewrite (packet_roundtrip _ _ _ W H). cbn [bind]. rewrite utils_norm.
  unfold packet_norm at 1. cbn [p_body]. rewrite B. reflexivity.
Qed.

(* The manifest of an encryptor, in a packet that was written to a file, is
   shown decrypted when the arguments give the AES key, and for a manifest that
   carries the wrapped key also when they give the RSA key. *)
Definition openable {P} (o : opts P) (ks : keystore P) (nd : node) (m : manifest) : Prop :=
  match op_enc o with
  | ENone => m = mkMan None (MNode nd) None
  | EAead a => exists nonce, aead_create_manifest P a nonce nd = Ok m
  | EOaep i => exists inc nonce, oaep_create_manifest P i inc nonce nd = Ok m /\ (inc = true \/ has_key ks (oi_params i))
  end.
(* what is shown of a manifest that holds the node *)
Definition shows_node {P} (o : opts P) (nd : node) (x : option (option manifest)) : Prop :=
  match op_enc o with
  | ENone => x = None
  | _ => exists n', same_node n' nd /\ x = Some (Some (mkMan None (MNode n') None))
  end.
(* the same with the exact values *)
Definition exactly_shown {P} (o : opts P) (nd : node) : option (option manifest) :=
  match op_enc o with ENone => None | _ => Some (Some (mkMan None (MNode (node_norm nd)) None)) end.
Lemma exactly_shows P (o : opts P) nd : shows_node o nd (exactly_shown o nd).
Proof.
  unfold shows_node, exactly_shown. destruct (op_enc o); [reflexivity| |]; (eexists; split; [apply same_node_norm|reflexivity]).
Qed.
Lemma shows_exact : forall P (o : opts P) c ks p w co pw m nd v later,
  aead_correct P -> oaep_correct P -> create_keystore P c = Ok ks -> can_open o (Some ks) ->
  storable p -> packet_wire p = Ok w -> p_body p = BCO co -> co_ptype co = Some PT_MANIFEST -> co_payload co = Some pw ->
  man_wire m = Ok pw -> node_wf nd -> openable o ks nd m -> utils_validate P ks p = Ok v ->
  packet_read P c later w = Ok (mkShown (packet_norm p) v (exactly_shown o nd)).
Proof.
  intros P o c ks p w co pw m nd v later Ha Ho K Op S W B T L M N C V.
  destruct (storable_wf _ S) as (w' & Wf & _). rewrite (read_packet P c ks p w co later K Wf W B), V. cbn [bind].
  unfold is_manifest. rewrite T, Z.eqb_refl.
  assert (X : manifest_of_node o nd m).
  { unfold openable in C. unfold manifest_of_node. destruct (op_enc o); eauto. destruct C as (inc & nonce & C & _). eauto. }
  destruct (received P o nd m pw) as (m' & D & Em); auto.
  { intros i E. unfold can_open in Op. rewrite E in Op. apply Op. }
  { unfold can_open in Op. destruct (op_enc o); [exact I|apply Op|apply Op]. }
  unfold man_from_content. rewrite T, L. change (PT_MANIFEST =? PT_MANIFEST) with true. cbn [guard bind]. rewrite D. cbn [bind].
  unfold openable, can_open, exactly_shown in *. destruct (op_enc o) as [|a|i].
  - subst m'. reflexivity.
  - subst m'.
    destruct C as (nonce & C), Op as (_ & k & [= <-] & q & G & Q1 & Q2 & Q3).
    apply aead_create_ok in C as (md & ct & tag & Hmd & Henc & -> & _).
    unfold utils_decrypt, is_encrypted. cbn [m_node m_ctx negb a_keynum]. rewrite G.
    unfold aead_decrypt_manifest. erewrite decrypt_of; try eassumption; reflexivity.
  - subst m'.
    destruct C as (inc & nonce & C & I), Op as (Hp & HW & k & [= <-] & Hk).
    assert (fst (fst (oaep_decrypt_manifest P ks [] m)) = Ok (mkMan None (MNode (node_norm nd)) None)) as E.
    { assert (Y : has_key ks (oi_params i) -> fst (fst (oaep_decrypt_manifest P ks [] m)) = Ok (mkMan None (MNode (node_norm nd)) None)).
      { intros (q & Hq & He). destruct (oaep_warm P Ha i inc nonce nd m ks [] q C N Hq He) as (oc' & -> & _); [intros ? ? [=]|reflexivity]. }
      destruct I as [->|I]; [|auto]. destruct Hk as [Hk|(wr & Hwr & Hu)]; [auto|].
      destruct (oaep_cold P Ha Ho i nonce nd m ks wr C N Hp Hwr Hu) as (? & ? & ? & -> & _). reflexivity. }
    apply oaep_create_ok in C as (md & ct & tag & _ & _ & ->).
    unfold utils_decrypt, is_encrypted. cbn [m_node m_ctx negb]. rewrite E. reflexivity.
Qed.
Theorem C69_shows : forall P (o : opts P) c ks p w co pw m nd v later,
  aead_correct P -> oaep_correct P -> create_keystore P c = Ok ks -> can_open o (Some ks) ->
  storable p -> packet_wire p = Ok w -> p_body p = BCO co -> co_ptype co = Some PT_MANIFEST -> co_payload co = Some pw ->
  man_wire m = Ok pw -> node_wf nd -> openable o ks nd m -> utils_validate P ks p = Ok v ->
  exists p' x, packet_read P c later w = Ok (mkShown p' v x) /\ same_packet p' p /\ shows_node o nd x.
Proof.
  intros P o c ks p w co pw m nd v later Ha Ho K Op S W B T L M N C V.
  exists (packet_norm p), (exactly_shown o nd). split; [eapply shows_exact; eassumption|]. split; [eapply same_packet_norm; eassumption|].
  apply exactly_shows.
Qed.
Print Assumptions C69_shows.

(* the reader's key store has the AES key that the writer was given *)
Lemma told_has_key P hash fr c r ks (o : opts P) i b : told hash c r -> create_keystore P r = Ok ks ->
  cli_encryptor P fr (default_num P hash c) = Ok (op_enc o) -> can_open o (Some ks) -> op_enc o = EOaep i -> ca_enc c = Some b ->
  has_key ks (oi_params i).
Proof.
  intros (_ & T & _) K E Op Ho Eb. unfold can_open in Op. rewrite Ho in *. destruct Op as (_ & _ & k & [= <-] & [Op|(wr & _ & Op)]); [assumption|].
  exfalso. destruct Op as [Op _]. rewrite Eb in T. destruct T as (T1 & _ & _ & T4 & _).
  apply keystore_aes in K. rewrite T1 in K. destruct K as (n & q & Q1 & Q2 & _). rewrite T4 in Q1. injection Q1 as <-.
  apply (Op q). rewrite <- Q2. f_equal.
  unfold cli_encryptor in E. apply bind_ok in E as (k & KK & E). apply cli_aes_key_ok in KK.
  unfold default_num in *. rewrite Eb in *.
  assert (exists cc, ca_enc cc = Some b /\ ca_num cc = Some (number_of hash c b) /\
    match ca_num c with Some _ => c | None => set_num P (Some (hash b)) c end = cc) as (cc & C1 & C2 & C3).
  { unfold number_of. destruct (ca_num c) eqn:En; eexists; repeat split; auto. }
  rewrite C3 in *. rewrite C1 in KK. subst k. rewrite C2 in E. destruct (ca_wrap cc).
  - apply bind_ok in E as (p & Ep & E). apply bind_ok in E as (wr' & Ew & E). apply Ok_inj in E. injection E as <-.
    apply cli_params_ok in Ep as (_ & Ep & _). exact Ep.
  - apply bind_ok in E as (p & Ep & E). discriminate.
Qed.
(* the nodes of a build: no locators, every group has its pointers, and the
   name constructors can be printed *)
Definition made_node (nd : node) : Prop :=
  Forall (fun g => hg_ptrs g <> None) (n_groups nd) /\
  forall d, n_data nd = Some d -> nd_locators d = None /\ Forall def_ok (map ncdef_norm (nd_ncdefs d)).
Lemma tree_made P clog rnd now (o : opts P) nc data k k' x ps l pkts meta num r :
  setup P clog rnd now o nc data k k' x ps l pkts meta num r ->
  forall out np b lv t, result P rnd now (env_of P o x meta r) out k' np b lv t ->
  forall u, In u (subtrees t) -> made_node (mi_node (top u)).
Proof.
  intros SU out np b lv t RS u Hu. destruct (wf_sub P rnd now _ t lv (rs_wf _ _ _ _ _ _ _ _ _ _ RS) u Hu) as (l' & _ & W).
  assert (forall v z d, size_data P v z = Some d -> nd_locators d = None /\ Forall def_ok (map ncdef_norm (nd_ncdefs d))) as S.
  { unfold size_data, opt_if. intros v z d. destruct (op_nsize _); [|discriminate]. intros [= <-]. split; [reflexivity|constructor]. }
  destruct u as [i lo hi|i lo hi kids]; cbn [top].
  - apply wf_leaf in W as (_ & _ & _ & _ & _ & ->). split; [|apply S]. repeat constructor. discriminate.
  - apply wf_inner in W as (l2 & -> & _ & _ & _ & _ & _ & _ & _ & -> & _). split; [|apply S]. cbn [n_groups inner_node].
    destruct (nx_two _); repeat constructor; discriminate.
Qed.
Lemma root_made P (o : opts P) nc (data : bytes) x h : nctx_create P o nc = Ok x -> nc + 1 < 2 ^ 64 -> printable_locators o ->
  made_node (root_node o x (zlen data) h).
Proof.
  intros Hx Hn Hp. split; cbn [root_node n_groups n_data].
  - repeat constructor. discriminate.
  - intros d [= <-]. split; [reflexivity|]. exact (ctx_defs_ok P o nc x Hx Hn Hp).
Qed.
Lemma written_exact : forall P hash fr clog rnd now (a : wargs P) data root s s' o dopt r ks later p w,
  log_ok clog -> wa_max a <= 2 ^ 24 -> aead_correct P -> oaep_correct P -> sig_correct P ->
  whole_seconds (wa_rexp a) -> whole_seconds (wa_mexp a) -> whole_seconds (wa_dexp a) ->
  (ca_key (wa_c a) <> None -> wire_time now) -> fresh_ok fr ->
  writer_setup P hash fr now a = Ok (o, dopt) -> ms_out s = [] ->
  writer_run P hash fr clog rnd now a data s = (Ok root, s') ->
  told hash (wa_c a) r -> create_keystore P r = Ok ks ->
  In p (ms_out s') -> packet_wire p = Ok w ->
  (is_data_object p /\ packet_read P r later w = Ok (mkShown (packet_norm p) false None)) \/
  (exists nd, holds_node o p nd /\ node_wf nd /\ made_node nd /\
     (ca_wrap (wa_c a) = None \/ ca_enc (wa_c a) <> None \/ p = root ->
      exists v, packet_read P r later w = Ok (mkShown (packet_norm p) v (exactly_shown o nd)) /\
        (v = true <-> ca_key (wa_c a) <> None /\ p = root))).
Proof.
  intros P hash fr clog rnd now a data root s s' o dopt r ks later p w HL HM HA HO HS W1 W2 W3 N F SU S0 R T K Hp Hw.
  pose proof (setup_ready P hash fr now a o dopt r ks SU F T K W1 W2 W3 N) as (B1 & B2 & B3 & B4 & B5).
  pose proof (setup_inv _ _ _ _ _ _ _ SU) as I. cbv zeta in I.
  destruct I as (A1 & A2 & A5 & _ & _ & _ & _ & _ & _ & _ & A6 & A3 & A4 & _).
  assert (SG : cli_signer P (wa_c a) = Ok (op_signer o)).
  { rewrite <- A5. unfold cli_signer, default_num. destruct (ca_enc (wa_c a)), (ca_num (wa_c a)); reflexivity. }
  unfold writer_run in R. rewrite SU in R. cbn [lift sbind] in R. clear SU.
  rewrite <- A3 in HM.
  apply (manifest_tree_ok P clog rnd now o 1 data HL HM) in R as (k' & x & ps & l & pkts & meta & num & rr & lv & t & np & b & k2 & SU & RS & RP & ->).
  cbn [ms_out] in Hp. rewrite S0 in *. cbn [app] in *.
  assert (Hnc : 1 + 1 < 2 ^ 64) by reflexivity.
  assert (Sp : storable p).
  { eapply (new_storable P clog rnd now o 1 data HM Hnc B5 _ _ _ _ _ _ _ _ _ SU _ _ _ _ _ RS _ _ root RP). exact Hp. }
  destruct (storable_wf _ Sp) as (w' & Wf & _).
  pose proof (root_inv _ _ _ _ _ _ _ _ _ _ RP) as (h & mr & wr & Hh & Hmr & Hwr & _ & Hcr & Hbr & _). cbv zeta in Hcr.
  assert (KR : p_alg root <> None <-> ca_key (wa_c a) <> None).
  { unfold cli_signer in SG. destruct (ca_key (wa_c a)) as [[sk|pk]|]; [| discriminate|]; apply Ok_inj in SG; rewrite <- SG in Hcr.
    - apply sign_content_ok in Hcr as (al & tc & ta & vv & _ & _ & _ & _ & _ & -> & _). split; discriminate.
    - unfold create_content_object in Hcr. apply bind_ok in Hcr as (? & _ & Hcr). apply bind_ok in Hcr as (? & _ & Hcr).
      apply Ok_inj in Hcr. subst root. cbn. tauto. }
  assert (VD : p_alg p = None -> utils_validate P ks p = Ok false) by (intros Z; apply C69_unverified; auto).
  apply in_app_iff in Hp as [Hp|Hp]; [left|right; apply in_app_iff in Hp as [Hp|[<-|[]]]].
  - destruct (data_kind P clog rnd now o 1 data _ _ _ _ _ _ _ _ _ SU p Hp) as (j & nm & bb & fc & w1 & _ & Hb & Hal & _).
    split; [eexists; split; [exact Hb|reflexivity]|].
    rewrite (read_packet P r ks p w _ later K Wf Hw Hb), (VD Hal). reflexivity.
  - destruct (tree_kind P clog rnd now o 1 data HM Hnc _ _ _ _ _ _ _ _ _ SU _ _ _ _ _ RS p Hp)
      as (u & Hu & _ & (m & w1 & Hm & Hmw & _ & Hb & Hal & _) & _ & Nw & _).
    cbn [te_opt env_of] in *. exists (mi_node (top u)). split.
    + eexists _, m, w1. split; [exact Hb|]. do 2 (split; [reflexivity|]). split; [exact Hmw|].
      unfold manifest_for in Hm. cbn [te_opt env_of] in Hm. unfold manifest_of_node. destruct (op_enc o); eauto.
    + split; [exact Nw|]. split; [exact (tree_made P clog rnd now o 1 data _ _ _ _ _ _ _ _ _ SU _ _ _ _ _ RS u Hu)|].
      intros C. exists false. split; [|split; [discriminate|intros [Z1 Z2]; exfalso; apply KR in Z1; congruence]].
      eapply (shows_exact P o r ks p w _ w1 m (mi_node (top u)) false later HA HO K (proj1 B4) Sp Hw Hb eq_refl eq_refl Hmw Nw); auto.
      unfold manifest_for in Hm. cbn [te_opt env_of] in Hm. unfold openable. destruct (op_enc o) as [|aa|i] eqn:Eo; eauto.
        exists false. eexists. split; [exact Hm|]. right. destruct (ca_enc (wa_c a)) as [bb|] eqn:Eb.
        -- eapply told_has_key; eauto; [rewrite Eo; exact A6|apply B4].
        -- exfalso. destruct C as [C|[C|C]]; [|contradiction|].
           ++ pose proof A6 as Y. unfold default_num in Y. rewrite Eb in Y. unfold cli_encryptor, cli_aes_key in Y. rewrite Eb, C in Y. discriminate Y.
           ++ pose proof (proj1 B4) as Y. unfold can_open in Y. rewrite Eo in Y. destruct Y as (_ & _ & kk & [= <-] & [Y|(wq & Hq & _)]).
              { destruct Y as (q & Y & _). destruct T as (_ & T & _). rewrite Eb in T. apply keystore_aes in K.
                destruct (ca_wrap (wa_c a)) eqn:Ew; [destruct T as [T _]; rewrite T in K; exact (K _ _ Y)|].
                pose proof A6 as Z. unfold default_num in Z. rewrite Eb in Z. unfold cli_encryptor, cli_aes_key in Z. rewrite Eb, Ew in Z. discriminate Z. }
              subst p. rewrite Hbr in Hb. injection Hb as _ <-.
              assert (M1 : manifest_of_node o (mi_node (top u)) m) by (unfold manifest_of_node; rewrite Eo; eauto).
              assert (M2 : manifest_of_node o (root_node o x (zlen data) h) mr) by (unfold root_manifest in Hmr; unfold manifest_of_node; rewrite Eo in *; eauto).
              pose proof (root_node_wf P clog rnd now o 1 data HM Hnc _ _ _ _ _ _ _ _ _ SU h) as Nr.
              pose proof (enc_ok P o (Some ks) (proj1 B4)) as (E1 & E2).
              destruct (received P o _ m wr E1 E2 M1 Nw Hmw) as (m1 & D1 & F1). destruct (received P o _ mr wr E1 E2 M2 Nr Hwr) as (m2 & D2 & F2).
              rewrite Eo in F1, F2. subst m1 m2. rewrite D1 in D2. apply Ok_inj in D2. subst mr.
              unfold root_manifest in Hmr. rewrite Eo in Hmr. apply oaep_create_ok in Hmr as (? & ? & ? & _ & _ & Z1).
              apply oaep_create_ok in Hm as (? & ? & ? & _ & _ & Z2). rewrite Hq in Z1. congruence.
  - exists (root_node o x (zlen data) h). split.
    + eexists _, mr, wr. split; [exact Hbr|]. do 2 (split; [reflexivity|]). split; [exact Hwr|].
      unfold root_manifest in Hmr. unfold manifest_of_node. destruct (op_enc o); eauto.
    + pose proof (root_node_wf P clog rnd now o 1 data HM Hnc _ _ _ _ _ _ _ _ _ SU h) as Nr. split; [exact Nr|].
      split; [exact (root_made P o 1 data x h (su_ctx _ _ _ _ _ _ _ _ _ _ _ _ _ _ _ _ SU) Hnc B3)|]. intros _.
      assert (exists v, utils_validate P ks root = Ok v /\ (v = true <-> ca_key (wa_c a) <> None)) as (v & V1 & V2).
      { destruct (p_alg root) as [al|] eqn:Eal.
        - exists true. split; [|split; [intros _; apply KR; discriminate|reflexivity]].
          apply C69_verified. split; [congruence|].
          refine (proj2 (new_ok P HS clog rnd now o 1 data HM Hnc _ _ _ _ _ _ _ _ _ SU _ _ _ _ _ RS _ _ root RP (Some ks) (signer_known P o (Some ks) B4) root _)).
          rewrite !in_app_iff. right; right; now left.
        - exists false. split; [auto|]. split; [discriminate|]. intros Z. apply KR in Z. congruence. }
      exists v. split; [|split; [intros Z; split; [now apply V2|reflexivity]|intros [Z _]; now apply V2]].
      eapply (shows_exact P o r ks root w _ wr mr (root_node o x (zlen data) h) v later HA HO K (proj1 B4) Sp Hw Hbr eq_refl eq_refl Hwr Nr); auto.
      unfold root_manifest in Hmr. unfold openable. destruct (op_enc o) as [|aa|i]; eauto.
Qed.
(* Every packet that manifest_writer wrote is shown by packet_reader with the
   matching arguments: data objects as they are, manifests with their node.
   Only the root is signed, so it alone is verified.  The manifests below the
   root of a tree whose key is known only from the wrapping are left out. *)
Theorem C69_written : forall P hash fr clog rnd now (a : wargs P) data root s s' o dopt r ks later p w,
  log_ok clog -> wa_max a <= 2 ^ 24 -> aead_correct P -> oaep_correct P -> sig_correct P ->
  whole_seconds (wa_rexp a) -> whole_seconds (wa_mexp a) -> whole_seconds (wa_dexp a) ->
  (ca_key (wa_c a) <> None -> wire_time now) -> fresh_ok fr ->
  writer_setup P hash fr now a = Ok (o, dopt) -> ms_out s = [] ->
  writer_run P hash fr clog rnd now a data s = (Ok root, s') ->
  told hash (wa_c a) r -> create_keystore P r = Ok ks ->
  In p (ms_out s') -> packet_wire p = Ok w ->
  (is_data_object p /\ exists p', packet_read P r later w = Ok (mkShown p' false None) /\ same_packet p' p) \/
  (exists nd, holds_node o p nd /\
     (ca_wrap (wa_c a) = None \/ ca_enc (wa_c a) <> None \/ p = root ->
      exists p' v x, packet_read P r later w = Ok (mkShown p' v x) /\ same_packet p' p /\ shows_node o nd x /\
        (v = true <-> ca_key (wa_c a) <> None /\ p = root))).
Proof.
  intros P hash fr clog rnd now a data root s s' o dopt r ks later p w HL HM HA HO HS W1 W2 W3 N F SU S0 R T K Hp Hw.
  destruct (written_exact P hash fr clog rnd now a data root s s' o dopt r ks later p w HL HM HA HO HS W1 W2 W3 N F SU S0 R T K Hp Hw)
    as [(D & H)|(nd & D & _ & _ & H)]; [left|right].
  - split; [exact D|]. exists (packet_norm p). split; [exact H|]. destruct D as (c & Hb & _). eapply same_packet_norm; exact Hb.
  - exists nd. split; [exact D|]. intros C. destruct (H C) as (v & X & V). exists (packet_norm p), v, (exactly_shown o nd).
    split; [exact X|]. split; [destruct D as (c & _ & _ & Hb & _); eapply same_packet_norm; exact Hb|]. split; [apply exactly_shows|exact V].
Qed.
Print Assumptions C69_written.

(* Without the key the program fails: AttributeError for an AEAD context (the
   decryptor is None), ValueError for a wrapped key context without the wrapped
   key, which is every manifest of a wrapped tree but the root. *)
Theorem C69_no_key_refuted : forall P c ks p w co m pw a ct tag later,
  create_keystore P c = Ok ks -> storable p -> packet_wire p = Ok w -> p_body p = BCO co ->
  co_ptype co = Some PT_MANIFEST -> co_payload co = Some pw -> man_deserialize pw = Ok m ->
  m_node m = MEnc ct -> m_tag m = Some tag -> (forall k, get_aes_key P ks (a_keynum a) <> Ok k) ->
  utils_validate P ks p = Ok true \/ utils_validate P ks p = Ok false ->
  (m_ctx m = Some (CAead a) -> packet_read P c later w = Err AttributeError) /\
  (m_ctx m = Some (CRsa a None) -> packet_read P c later w = Err ValueError).
Proof.
  intros P c ks p w co m pw a ct tag later K S W B T L D E1 E2 G V.
  destruct (storable_wf _ S) as (w' & Wf & _). rewrite (read_packet P c ks p w co later K Wf W B).
  assert (exists v, utils_validate P ks p = Ok v) as (v & ->) by (destruct V; eauto). cbn [bind].
  unfold is_manifest. rewrite T, Z.eqb_refl. unfold man_from_content. rewrite T, L. change (PT_MANIFEST =? PT_MANIFEST) with true.
  cbn [guard bind]. rewrite D. cbn [bind]. unfold is_encrypted. rewrite E1. unfold utils_decrypt, is_encrypted. rewrite E1. cbn [negb].
  destruct (get_aes_key P ks (a_keynum a)) as [q|e] eqn:Eq; [exfalso; exact (G q eq_refl)|].
  split; intros Ec; rewrite Ec.
  - rewrite Eq. reflexivity.
  - unfold oaep_decrypt_manifest. rewrite Ec. unfold oaep_get_impl, oimpl_create. cbn [dict_get]. rewrite Eq. reflexivity.
Qed.
Print Assumptions C69_no_key_refuted.

(* The commands on the toy primitives: writer with signing key 7 and either an
   AES key or a wrapping key, name ccnx:/a; then a traversal of the directory
   by root hash, manifest_reader on it, and packet_reader on every file. *)
Definition ex_hash (b : bytes) : Z := 3.
Definition ex_fresh : fresh := mkFresh (repeat 1 16) 77 5 [].
Definition ex_uri_a : text := [99; 99; 110; 120; 58; 47; 97].
Definition ex_caes : cargs toy := mkCA toy (Some (RPriv (P := toy) 7)) None (Some (repeat 1 16)) CCM None (Some 9) None None None.
Definition ex_raes : cargs toy := mkCA toy (Some (RPub (P := toy) 7)) None (Some (repeat 1 16)) CCM (Some 3) (Some 9) None None None.
Definition ex_cwrap : cargs toy := mkCA toy (Some (RPriv (P := toy) 7)) (Some (RPub (P := toy) 7)) None GCM None None None None None.
Definition ex_rwrap : cargs toy := mkCA toy (Some (RPub (P := toy) 7)) (Some (RPriv (P := toy) 7)) None GCM None None None None None.
Definition ex_wargs (ty : stype) (mx : Z) (c : cargs toy) : wargs toy :=
  mkWA toy ty ex_uri_a None None (match ty with Segmented => Some (ex_uri_a ++ [109]) | _ => None end) (match ty with Segmented => Some (ex_uri_a ++ [100]) | _ => None end)
    None mx (Some 1700000000000) None (Some 1700000000000) true c.
(* 0: a packet in the clear, 1: a decrypted manifest, 2: not decrypted *)
Definition ex_shown (r : res (shown)) : option exn * bool * Z :=
  match r with
  | Err e => (Some e, false, 0)
  | Ok x => (None, sh_verified x, match sh_manifest x with None => 0 | Some (Some _) => 1 | Some None => 2 end)
  end.
Definition ex_cli (a : wargs toy) (r : cargs toy) (n : nat) (data : bytes)
  : option exn * bool * Z * bool * (option exn * list bytes) * list (option exn * bool * Z) :=
  let now := mkFl 0 0 in
  match writer_setup toy ex_hash ex_fresh now a,
        writer_run toy ex_hash ex_fresh exact_log (fun _ => repeat 9 n) now a data (mkMst [] 0), create_keystore toy r with
  | Ok (o, dopt), (Ok root, s), Ok ks =>
    match packet_hash (pr_sha toy) root with
    | Ok h =>
      let d := dw_files (dir_puts toy ex_uri dopt (ms_out s) (mkDW [] [] 0 0 0 0 0 0)) in
      let '(e, t) := traverse_arg toy ex_uri now d (length (ms_out s)) (op_name o) (HVal h) (tst_new toy (Some ks)) in
      let '(e', ws) := reader_run toy ex_uri now d 100 (mkRA toy ex_uri_a None r) in
      (match e with Ok _ => None | Err e => Some e end, beqb (concat (ts_out t)) data, ts_count t,
       ex_same (ms_out s) (ms_out s),
       (match e' with Ok _ => None | Err e => Some e end, ws),
       map (fun p => ex_shown (w <- packet_wire p ;; packet_read toy r now w)) (ms_out s))
    | Err e => (Some e, false, 0, false, (None, []), [])
    end
  | _, (Err e, _), _ => (Some e, false, 0, false, (None, []), [])
  | _, _, _ => (None, false, 0, false, (None, []), [])
  end.
Lemma ex_wire_time : wire_time (mkFl 0 0).
Proof. exists 0. split; [lia|]. split; vm_compute; reflexivity. Qed.
Lemma ex_told_aes : told ex_hash ex_caes ex_raes.
Proof.
  split; [|split].
  - intros k [= <-]. exists (RPub (P := toy) 7). split; reflexivity.
  - repeat split.
  - intros k k' _ X. discriminate X.
Qed.
Lemma ex_told_wrap : told ex_hash ex_cwrap ex_rwrap.
Proof.
  split; [|split].
  - intros k [= <-]. exists (RPub (P := toy) 7). split; reflexivity.
  - split; [reflexivity|]. exists 7. split; reflexivity.
  - intros k k' [= <-] [= <-] _. reflexivity.
Qed.
Example C67_ex :
  told ex_hash ex_caes ex_raes /\ told ex_hash ex_cwrap ex_rwrap /\ fresh_ok ex_fresh /\ wire_time (mkFl 0 0) /\
  (forall ty mx c, whole_seconds (wa_rexp (ex_wargs ty mx c)) /\ whole_seconds (wa_mexp (ex_wargs ty mx c)) /\ whole_seconds (wa_dexp (ex_wargs ty mx c))) /\
  ex_cli (ex_wargs Hashed 400 ex_caes) ex_raes 8 (ex_bytes 1000) =
    (None, true, 5, true, (Some NameError, []), repeat (None, false, 0) 3 ++ [(None, false, 1); (None, true, 1)]) /\
  ex_cli (ex_wargs Prefixed 500 ex_cwrap) ex_rwrap 8 (ex_bytes 800) =
    (None, true, 4, true, (Some NameError, []), repeat (None, false, 0) 2 ++ [(Some ValueError, false, 0); (None, true, 1)]).
Proof.
  split; [exact ex_told_aes|]. split; [exact ex_told_wrap|]. split.
  { split; [cbn; lia|]. apply Forall_forall. intros b X. apply repeat_spec in X. subst b. lia. }
  split; [exact ex_wire_time|]. split.
  { intros ty mx c. cbn [wa_rexp wa_mexp wa_dexp ex_wargs]. split; [|split]; intros x E; try discriminate E; injection E as <-; split; [lia|reflexivity|lia|reflexivity]. }
  split; vm_compute; reflexivity.
Qed.
(* a segmented tree; then readers without the key and with a wrong one *)
Example C68_ex :
  ex_cli (ex_wargs Segmented 400 ex_caes) ex_raes 8 (ex_bytes 700) =
    (Some ValueError, false, 1, true, (Some NameError, []), repeat (None, false, 0) 3 ++ [(None, false, 1); (None, true, 1)]).
Proof. vm_compute. reflexivity. Qed.
Definition ex_wrong : cargs toy := mkCA toy None None (Some (repeat 2 16)) CCM (Some 3) None None None None.
Example C69_ex :
  snd (ex_cli (ex_wargs Hashed 400 ex_caes) ex_rwrap 8 (ex_bytes 100)) = [(None, false, 0); (Some AttributeError, false, 0); (Some AttributeError, false, 0)] /\
  snd (ex_cli (ex_wargs Hashed 400 ex_caes) ex_wrong 8 (ex_bytes 100)) = [(None, false, 0); (None, false, 2); (None, false, 2)].
Proof. split; vm_compute; reflexivity. Qed.
(* the other two exceptions *)
Example C68_errors_ex :
  match create_keystore toy ex_raes, from_uri (Some ex_uri_a) with Ok _, Ok (Some _) => True | _, _ => False end /\
  reader_run toy ex_uri (mkFl 0 0) [] 100 (mkRA toy ex_uri_a (Some [48; 120]) ex_raes) = (Err TypeError, []) /\
  reader_run toy ex_uri (mkFl 0 0) [] 100 (mkRA toy ex_uri_a None ex_raes) = (Err NotImplementedError, []).
Proof. split; [vm_compute; exact I|]. split; vm_compute; reflexivity. Qed.
