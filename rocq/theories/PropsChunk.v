(* C24-C26: splitting a file into data packets. *)
From Coq Require Import ZArith List Bool Lia ZifyBool.
From Verif Require Import Py Tlv Float Core TlvProofs CoreProofs Flic FlicProofs Spec WireSpec PropsTlv PropsFlic Crypto
  CryptoProofs PropsCrypto Optimizer OptimizerProofs Tree TreeSpec TreeProofs PropsTree ChunkProofs.
Import ListNotations.
Open Scope Z_scope.
Ltac Zify.zify_post_hook ::= Z.div_mod_to_equations.
Opaque tlv_make tlv_wire tlv_deserialize.

(* ---------------- specification ---------------- *)

(* [l] is [data] cut into non-empty pieces of [ps] bytes, only the last of which
   may be shorter *)
Definition cut (ps : Z) (data : bytes) (l : list bytes) : Prop :=
  concat l = data /\ Forall (fun b => b <> [] /\ zlen b <= ps) l /\
  forall pre b post, l = pre ++ b :: post -> post <> [] -> zlen b = ps.

(* p is an unsigned data object with this name, payload, final chunk id and the
   expiry time of the options; it has a wire image and h is its hash *)
Definition is_data {P} (o : opts P) (nm : option name) (b : bytes) (fc : option Z) (p : packet) (h : hashv)
  : Prop :=
  p_body p = BCO (mkCO nm (Some PT_DATA) (Some b) (op_dexp o) fc) /\ p_alg p = None /\ p_vpl p = None /\
  (exists w, packet_wire p = Ok w) /\ packet_hash (pr_sha P) p = Ok h.

Definition pkt_len (p : packet) : Z := match packet_wire p with Ok w => zlen w | Err _ => 0 end.

(* the k-th elements of three lists *)
Definition at3 {A B C} (k : nat) (la : list A) (lb : list B) (lc : list C) (a : A) (b : B) (c : C) : Prop :=
  nth_error la k = Some a /\ nth_error lb k = Some b /\ nth_error lc k = Some c.

(* ---------------- from the loop to the specification ---------------- *)

Lemma splits_cut ps d l : 1 <= ps -> splits ps d l -> cut ps d l.
Proof.
  intros Hp H. induction H as [|d l Hd Hs (IH1 & IH2 & IH3)].
  - repeat split; [constructor|]. intros [|? ?] ? ? E; discriminate.
  - split; [cbn [concat]; rewrite IH1; apply ztake_zskip|]. split.
    + constructor; [|exact IH2]. split.
      * intros E. apply ztake_nil_iff in E; [contradiction|lia].
      * rewrite zlen_ztake by lia. lia.
    + intros pre b post E Hpost. destruct pre as [|y pre]; cbn [app] in E; injection E as <- E.
      * subst post. rewrite zlen_ztake by lia. inversion Hs; subst; [congruence|].
        assert (zlen (zskip ps d) <> 0) as N by (intros N; apply zlen_0_nil in N; auto).
        rewrite zlen_zskip in N by lia. lia.
      * subst l. eapply IH3; eauto.
Qed.

Lemma emits_nth P o i l : forall id pkts ms, emits P o i id l pkts ms -> length pkts = length ms /\
  (length pkts <= length l)%nat /\
  forall k b p m, at3 k l pkts ms b p m ->
    data_object P o i (id + Z.of_nat k) (Nat.eqb (S k) (length l)) b p m.
Proof.
  induction l as [|b l IH]; intros id [|p pkts] [|m ms] H; cbn [emits] in H; try tauto.
  - repeat split; auto. intros [|k] b p m (H1 & _ & _); discriminate.
  - repeat split; cbn [length]; auto; [lia|]. intros [|k] ? ? ? (_ & H1 & _); discriminate.
  - destruct H as (Ho & He). apply IH in He as (L1 & L2 & He). cbn [length]. repeat split; try lia.
    intros [|k] b' p' m' (H1 & H2 & H3); cbn [nth_error] in *.
    + injection H1 as <-. injection H2 as <-. injection H3 as <-. rewrite Z.add_0_r.
      destruct l; exact Ho.
    + specialize (He k b' p' m' (conj H1 (conj H2 H3))).
      replace (id + Z.of_nat (S k)) with (id + 1 + Z.of_nat k) by lia. exact He.
Qed.

Lemma emits_sizes P o i l : forall id pkts ms, emits P o i id l pkts ms -> length pkts = length l ->
  map cm_bytes ms = map zlen l /\ map cm_num ms = zrange id (id + zlen l).
Proof.
  induction l as [|b l IH]; intros id [|p pkts] [|m ms] H L; cbn [emits length] in *; try tauto; try lia.
  - rewrite zlen_nil, Z.add_0_r, zrange_nil by lia. auto.
  - destruct H as ((nm & w & h & _ & _ & _ & _ & _ & _ & _ & _ & _ & _ & ->) & He). apply IH in He as (E1 & E2); [|lia].
    pose proof (zlen_nonneg l). cbn [map cm_bytes cm_num]. rewrite E1, E2, zlen_cons, (zrange_cons id) by lia. split; [reflexivity|].
    f_equal. f_equal. lia.
Qed.

Lemma zsum_concat (l : list bytes) : zsum (map zlen l) = zlen (concat l).
Proof. induction l as [|b l IH]; [reflexivity|]. cbn [map concat]. rewrite zsum_cons, zlen_app, IH. reflexivity. Qed.

Lemma chunk_data_run P o i id data out :
  run (chunk_data P o i id data) out
    (fun r out' => exists ps l pkts ms, payload_size P o i = Ok ps /\ 1 <= ps /\ cut ps data l /\
       out' = out ++ pkts /\ emits P o i id l pkts ms /\ length pkts = length l /\
       r = (ms, zlen data, id + zlen l))
    (fun e out' => payload_size P o i = Err e /\ out' = out \/
       exists ps l pkts ms, payload_size P o i = Ok ps /\ 1 <= ps /\ cut ps data l /\
       out' = out ++ pkts /\ emits P o i id l pkts ms /\ fails P o i id l (length pkts) e).
Proof.
  unfold chunk_data. apply run_bind, run_lift; [|auto]. intros ps Eps.
  pose proof (payload_size_ok P o i ps Eps) as (_ & _ & _ & _ & Hp & _).
  destruct (splits_exists ps Hp (length data) data) as (l & Hs & Ll); [auto|].
  pose proof (splits_cut _ _ _ Hp Hs) as Hc.
  eapply run_weaken; [apply (loop_spec P o i ps data l Hp Hs); lia| |].
  - intros r out' (pkts & ms & -> & He & L & ->). exists ps, l, pkts, ms. tauto.
  - intros e out' (pkts & ms & -> & He & Hf). right. exists ps, l, pkts, ms. tauto.
Qed.

(* ---------------- C24 ---------------- *)

(* The file is cut into pieces; one packet per piece is put to the output, in
   order; packet number k is the data object named id + k with piece k as
   payload; the metadata list has the numbers, payload sizes and hashes of the
   packets; the total is the file size. *)
Theorem C24_chunks : forall P (o : opts P) i id data out meta total next out',
  chunk_data P o i id data out = (Ok (meta, total, next), out') ->
  exists ps l pkts, payload_size P o i = Ok ps /\ 1 <= ps /\ cut ps data l /\
    out' = out ++ pkts /\ length pkts = length l /\ length meta = length l /\
    (forall k b p m, at3 k l pkts meta b p m -> exists nm fc,
       impl_name i (Some (id + Z.of_nat k)) = Ok nm /\ is_data o nm b fc p (cm_hash m) /\
       cm_num m = id + Z.of_nat k /\ cm_bytes m = zlen b) /\
    map cm_num meta = zrange id (id + zlen l) /\
    total = zlen data /\ total = zsum (map cm_bytes meta) /\ next = id + zlen l.
Proof.
  intros P o i id data out meta total next out' H.
  pose proof (chunk_data_run P o i id data out) as R. unfold run in R. rewrite H in R.
  destruct R as (ps & l & pkts & ms & Eps & Hp & Hc & -> & He & L & E). injection E as -> -> ->.
  exists ps, l, pkts. pose proof (emits_nth _ _ _ _ _ _ _ He) as (L1 & _ & Hn).
  pose proof (emits_sizes _ _ _ _ _ _ _ He L) as (Eb & En).
  do 4 (split; [assumption||reflexivity|]). split; [assumption|]. split; [lia|]. split.
  - intros k b p m H3. destruct (Hn _ _ _ _ H3) as (nm & w & h & A1 & A2 & A3 & (A4 & _) & A5 & A6 & A7 & _ & _ & A8 & ->).
    exists nm, (final_id i (id + Z.of_nat k) (Nat.eqb (S k) (length l))).
    unfold is_data. cbn [cm_hash cm_num cm_bytes]. eauto 10.
  - split; [exact En|]. split; [reflexivity|]. split; [|reflexivity].
    rewrite Eb, zsum_concat. destruct Hc as (-> & _). reflexivity.
Qed.

(* The cut is unique, and its length is the number of pieces needed. *)
Theorem C24_cut_unique : forall ps data l l', 1 <= ps -> cut ps data l -> cut ps data l' ->
  l = l' /\ (zlen data <= ps * zlen l < zlen data + ps).
Proof.
  assert (U : forall ps l data l', 1 <= ps -> cut ps data l -> cut ps data l' -> l = l').
  { intros ps. induction l as [|b l IH]; intros data l' Hp (C1 & F1 & T1) (C2 & F2 & T2).
    - cbn in C1. subst data. destruct l' as [|b' l']; [reflexivity|]. inversion F2; subst.
      cbn [concat] in C2. apply app_eq_nil in C2 as (-> & _). tauto.
    - destruct l' as [|b' l'].
      { cbn in C2. subst data. inversion F1; subst. cbn [concat] in C2. symmetry in C2. apply app_eq_nil in C2 as (-> & _). tauto. }
      inversion F1 as [|? ? (N1 & L1) F1']; subst. inversion F2 as [|? ? (N2 & L2) F2']; subst.
      assert (zlen b = zlen b') as Lb.
      { destruct l as [|c l], l' as [|c' l'].
        - cbn [concat] in C2. rewrite !app_nil_r in C2. congruence.
        - rewrite (T2 [] b' (c' :: l') eq_refl) by discriminate. apply (f_equal zlen) in C2. cbn [concat] in C2.
          rewrite !zlen_app, zlen_nil in C2. rewrite (T2 [] b' (c' :: l') eq_refl) in C2 by discriminate.
          inversion F2' as [|? ? (Nc & _) _]; subst. pose proof (zlen_nonneg c'). pose proof (zlen_nonneg (concat l')).
          assert (zlen c' <> 0) by (intros X; apply zlen_0_nil in X; auto). lia.
        - rewrite (T1 [] b (c :: l) eq_refl) by discriminate. apply (f_equal zlen) in C2. cbn [concat] in C2.
          rewrite !zlen_app, zlen_nil in C2. rewrite (T1 [] b (c :: l) eq_refl) in C2 by discriminate.
          inversion F1' as [|? ? (Nc & _) _]; subst. pose proof (zlen_nonneg c). pose proof (zlen_nonneg (concat l)).
          assert (zlen c <> 0) by (intros X; apply zlen_0_nil in X; auto). lia.
        - rewrite (T1 [] b (c :: l) eq_refl), (T2 [] b' (c' :: l') eq_refl); [reflexivity|discriminate|discriminate]. }
      cbn [concat] in C2.
      assert (b = b') as <-.
      { rewrite <- (ztake_app b (concat l) (zlen b) eq_refl), <- C2. apply ztake_app. exact Lb. }
      apply app_inv_head in C2. f_equal. eapply (IH (concat l)); eauto.
      + repeat split; auto. intros pre x post E. apply (T1 (b :: pre)). now rewrite E.
      + repeat split; auto. intros pre x post E. apply (T2 (b :: pre)). now rewrite E. }
  intros ps data l l' Hp C C'. split; [eapply U; eauto|]. clear C' l' U.
  revert data C. induction l as [|b l IH]; intros data (C & F & T); cbn [concat] in C; subst data.
  - unfold zlen. cbn. rewrite ?Z.mul_0_r. lia.
  - inversion F as [|? ? (N & L) F']; subst. rewrite zlen_cons, zlen_app.
    assert (zlen b <> 0) by (intros X; apply zlen_0_nil in X; auto). pose proof (zlen_nonneg b).
    assert (cut ps (concat l) l) as C'.
    { repeat split; auto. intros pre x post E. apply (T (b :: pre)). now rewrite E. }
    specialize (IH _ C'). destruct l as [|c l].
    + change (zlen (concat (A:=Z) [])) with 0. change (zlen (A:=bytes) []) with 0. lia.
    + rewrite (T [] b (c :: l) eq_refl) by discriminate. nia.
Qed.

(* ---------------- C25 ---------------- *)

(* Whether chunking returns or raises, every packet put fits. *)
Theorem C25_fits : forall P (o : opts P) i id data out r out',
  chunk_data P o i id data out = (r, out') ->
  exists pkts, out' = out ++ pkts /\
    Forall (fun p => (exists w, packet_wire p = Ok w) /\ pkt_len p <= op_max o) pkts.
Proof.
  intros P o i id data out r out' H.
  pose proof (chunk_data_run P o i id data out) as R. unfold run in R. rewrite H in R.
  assert (X : forall l id pkts ms, emits P o i id l pkts ms ->
    Forall (fun p => (exists w, packet_wire p = Ok w) /\ pkt_len p <= op_max o) pkts).
  { induction l as [|b l IH]; intros id' [|p pkts] [|m ms] He; cbn [emits] in He; try tauto; try constructor.
    - destruct He as ((nm & w & h & _ & _ & _ & _ & Ew & _ & Lw & _) & _). unfold pkt_len. rewrite Ew. eauto.
    - destruct He as (_ & He). eapply IH; eauto. }
  destruct r as [[[meta total] next]|e].
  - destruct R as (ps & l & pkts & ms & _ & _ & _ & -> & He & _). eauto.
  - destruct R as [(_ & ->)|(ps & l & pkts & ms & _ & _ & _ & -> & He & _)]; [|eauto].
    exists []. split; [now rewrite app_nil_r|constructor].
Qed.

(* an empty data packet with the largest chunk number and, for names with
   numbers, a final chunk id fits with at least one byte of payload *)
Definition empty_fits {P} (o : opts P) (i : impl) : Prop :=
  exists nm p w, impl_name i (Some 0xFFFFFF) = Ok nm /\
    (c <- create_data nm (Some []) (op_dexp o) (if uses_name_id i then Some 0xFFFFFF else None) ;;
     create_content_object c) = Ok p /\ packet_wire p = Ok w /\ zlen w < op_max o.
Definition sha_ok (P : prims) : Prop := forall b, all_bytes (pr_sha P b) /\ length (pr_sha P b) = 32%nat.

Lemma empty_fits_size P (o : opts P) i : empty_fits o i -> exists ps, payload_size P o i = Ok ps.
Proof.
  intros (nm & p & w & En & Ep & Ew & L). apply bind_ok in Ep as (c & Ec & Ep).
  exists (op_max o - zlen w). unfold payload_size. change MAX_CHUNK_ID with 0xFFFFFF. rewrite En. cbn [bind].
  apply bind_ok. exists c. split; [exact Ec|]. rewrite Ep. cbn [bind]. unfold packet_len. rewrite Ew. cbn [bind].
  replace (zlen w <? op_max o) with true by lia. reflexivity.
Qed.

Lemma packet_hash_intro P p w : sha_ok P -> packet_wire p = Ok w -> exists h, packet_hash (pr_sha P) p = Ok h.
Proof.
  intros Hs Hw. unfold packet_hash. apply packet_wire_ok in Hw as (_ & _ & b & l2 & l3 & _ & _ & _ & _ & _ & _ & _ & _ & ->).
  cbn [bind]. destruct (Hs (wires ([b] ++ l2 ++ l3))) as (Hb & Hl).
  unfold hashv_tlv. rewrite tlv_make_intro; [cbn [bind]; eauto|].
  cbn [h_alg h_val]. unfold tlv_ok, tlv_length, T_SHA_256, zlen. cbn [t_type t_val]. rewrite Hl.
  repeat split; try lia. apply Forall_forall. exact Hb.
Qed.


Lemma emits_last P o i l : forall id pkts ms, emits P o i id l pkts ms -> 
  pkts = [] \/ id + zlen pkts <= 2 ^ 24.
Proof.
  induction l as [|b l IH]; intros id [|p pkts] [|m ms] He; cbn [emits] in He; try tauto.
  destruct He as ((nm & w & h & _ & _ & _ & _ & _ & _ & _ & Hid & _) & He). right. unfold MAX_CHUNK_ID in Hid.
  destruct (IH _ _ _ He) as [->|H]; rewrite zlen_cons; [rewrite zlen_nil|]; lia.
Qed.

Lemma fails_nth P o i l : forall id k e, fails P o i id l k e -> exists b,
  nth_error l k = Some b /\ chunk_fail P o i (id + Z.of_nat k) (Nat.eqb (S k) (length l)) b e.
Proof.
  induction l as [|b l IH]; intros id k e H; cbn [fails] in H; [tauto|]. destruct k as [|k].
  - exists b. rewrite Z.add_0_r. split; [reflexivity|]. destruct l; exact H.
  - apply IH in H as (b' & H1 & H2). exists b'. split; [exact H1|].
    replace (id + Z.of_nat (S k)) with (id + 1 + Z.of_nat k) by lia. exact H2.
Qed.

(* With room for an empty packet, and a packet size that the packet header can
   express, chunking succeeds if the numbers suffice, and otherwise raises
   ValueError after writing all chunks that can be numbered. *)
Theorem C25_never_fails : forall P (o : opts P) i id data out,
  sha_ok P -> all_bytes data -> empty_fits o i -> op_max o < 2 ^ 16 -> 0 <= id <= 2 ^ 24 ->
  exists ps, payload_size P o i = Ok ps /\ 1 <= ps /\
  if zlen data <=? ps * (2 ^ 24 - id)
  then exists meta total next out', chunk_data P o i id data out = (Ok (meta, total, next), out')
  else exists pkts, chunk_data P o i id data out = (Err ValueError, out ++ pkts) /\
         zlen pkts = 2 ^ 24 - id.
Proof.
  intros P o i id data out Hs Hd Hf Hm Hid. destruct (empty_fits_size _ _ _ Hf) as (ps0 & Eps0). exists ps0.
  split; [exact Eps0|]. split; [apply payload_size_ok in Eps0 as (? & ? & ? & ? & ? & ?); assumption|].
  pose proof (chunk_data_run P o i id data out) as R. unfold run in R.
  destruct (chunk_data P o i id data out) as [[[[meta total] next]|e] out'] eqn:E.
  - destruct R as (ps & l & pkts & ms & Eps & Hp & Hc & -> & He & L & X). injection X as -> -> ->.
    rewrite Eps0 in Eps. apply Ok_inj in Eps. subst ps0.
    destruct (zlen data <=? ps * (2 ^ 24 - id)) eqn:C; [eauto|]. exfalso.
    pose proof (C24_cut_unique _ _ _ _ Hp Hc Hc) as (_ & Lc).
    assert (zlen pkts = zlen l) as Ll by (unfold zlen; lia).
    assert (2 ^ 24 - id < zlen l) as G by nia.
    destruct (emits_last _ _ _ _ _ _ _ He) as [->|B]; [rewrite zlen_nil in Ll|]; lia.
  - destruct R as [(R & _)|(ps & l & pkts & ms & Eps & Hp & Hc & -> & He & Hfl)]; [congruence|].
    rewrite Eps0 in Eps. apply Ok_inj in Eps. subst ps0.
    pose proof (C24_cut_unique _ _ _ _ Hp Hc Hc) as (_ & Lc).
    apply fails_nth in Hfl as (b & Hb & Hfl).
    assert (length pkts < length l)%nat as Lk by (apply nth_error_Some; congruence).
    assert (zlen pkts < zlen l) as Lk' by (unfold zlen; lia).
    destruct Hfl as [(Hbig & ->)|(Hsm & Hfl)].
    + unfold MAX_CHUNK_ID in Hbig. fold (zlen pkts) in Hbig.
      replace (zlen data <=? ps * (2 ^ 24 - id)) with false.
      2:{ symmetry. apply Z.leb_gt. assert (2 ^ 24 - id + 1 <= zlen l) by lia. nia. }
      exists pkts. split; [reflexivity|]. destruct (emits_last _ _ _ _ _ _ _ He) as [->|B]; [rewrite zlen_nil in *|]; lia.
    + exfalso. destruct Hc as (Hcc & Hall & _). apply nth_error_In in Hb as Hin.
      rewrite Forall_forall in Hall. destruct (Hall _ Hin) as (_ & Hlen).
      assert (bytes_ok b) as Hbb.
      { apply Forall_forall. intros x Hx. apply Hd. rewrite <- Hcc. apply in_concat. eauto. }
      destruct (data_fits P o i ps (id + Z.of_nat (length pkts)) b (Nat.eqb (S (length pkts)) (length l)) Eps0)
        as (nm & p & En & Ep & u & Eu); auto; [lia|].
      destruct Hfl as [H|[H|[(nm' & H1 & H)|(nm' & p' & H1 & H2 & H)]]]; try congruence.
      assert (p' = p) as -> by congruence. apply data_packet_ok in Ep as (w & _ & _ & _ & Ew & _).
      destruct (packet_hash_intro P p w Hs Ew) as (h & Eh). congruence.
Qed.

(* Names without numbers: every packet but the last has exactly the maximum
   size.  Names with numbers: the unused space is at most the room reserved for
   larger numbers and the final chunk id. *)
Theorem C25_tight : forall P (o : opts P) i id data out meta total next out' pkts,
  0 <= id -> chunk_data P o i id data out = (Ok (meta, total, next), out') -> out' = out ++ pkts ->
  forall pre p post, pkts = pre ++ p :: post -> post <> [] ->
  if uses_name_id i then op_max o - 9 <= pkt_len p <= op_max o else pkt_len p = op_max o.
Proof.
  intros P o i id data out meta total next out' pkts Hid H Ho pre p post Epk Hpost.
  pose proof (chunk_data_run P o i id data out) as R. unfold run in R. rewrite H in R.
  destruct R as (ps & l & pkts' & ms & Eps & Hp & (_ & _ & Hc) & E' & He & L & _). subst out'.
  apply app_inv_head in E'. subst pkts'. pose proof (emits_nth _ _ _ _ _ _ _ He) as (L1 & _ & Hn).
  assert (length pkts = length pre + S (length post))%nat as Lp by (rewrite Epk, app_length; reflexivity).
  assert (length post <> 0)%nat as Lpost by (destruct post; [congruence|cbn; lia]).
  assert (exists b, nth_error l (length pre) = Some b) as (b & Hb).
  { destruct (nth_error l (length pre)) eqn:X; [eauto|]. apply nth_error_None in X. lia. }
  assert (exists m, nth_error ms (length pre) = Some m) as (m & Hm).
  { destruct (nth_error ms (length pre)) eqn:X; [eauto|]. apply nth_error_None in X. lia. }
  assert (nth_error pkts (length pre) = Some p) as Hpk.
  { rewrite Epk, nth_error_app2, Nat.sub_diag by lia. reflexivity. }
  destruct (Hn _ _ _ _ (conj Hb (conj Hpk Hm))) as (nm & w & h & En & _ & _ & _ & Ew & Lw & Lmax & Hmx & _).
  apply nth_error_split in Hb as (l1 & l2 & El & Ll).
  assert (zlen b = ps) as Lb.
  { eapply Hc; [exact El|]. intros ->. rewrite El, app_length in L. cbn in L. lia. }
  replace (Nat.eqb (S (length pre)) (length l)) with false in * by (symmetry; apply Nat.eqb_neq; lia).
  apply payload_size_ok in Eps as (nx & Ex & Wx & _ & _ & Hmax).
  destruct (impl_name_mono i (id + Z.of_nat (length pre)) MAX_CHUNK_ID nx) as (nm' & En' & _ & Ln); [lia|exact Ex|exact Wx|].
  rewrite En in En'. apply Ok_inj in En'. subst nm'.
  unfold pkt_len. rewrite Ew.
  assert (final_id i (id + Z.of_nat (length pre)) false = None) as Ef.
  { unfold final_id. destruct (im_schema i) as [| |? [?|] ? ?]; try reflexivity. now rewrite andb_false_r. }
  rewrite Ef in Lw. unfold data_len in *. cbn [fcid_len] in *. rewrite zlen_nil in Hmax.
  assert (int_len MAX_CHUNK_ID = 3) as I3 by reflexivity.
  pose proof (int_len_pos (id + Z.of_nat (length pre))).
  pose proof (int_len_mono (id + Z.of_nat (length pre)) MAX_CHUNK_ID ltac:(lia)).
  destruct (uses_name_id i); cbn [fcid_len] in *; lia.
Qed.

(* a packet size that needs more than 16 bits: full packets cannot be encoded *)
Theorem C25_large : forall P (o : opts P) i id data out ps,
  payload_size P o i = Ok ps -> uses_name_id i = false -> 2 ^ 16 <= op_max o -> ps <= zlen data ->
  exists e, chunk_data P o i id data out = (Err e, out).
Proof.
  intros P o i id data out ps0 Eps0 Hu Hm Hd.
  pose proof (chunk_data_run P o i id data out) as R. unfold run in R.
  pose proof (payload_size_ok P o i _ Eps0) as (nx & Ex & Wx & _ & Hps & Hmax). rewrite Hu in Hmax.
  (* the first piece is full *)
  assert (X : forall l pkts ms, cut ps0 data l -> emits P o i id l pkts ms -> pkts = [] /\ l <> []).
  { intros [|b l] pkts ms (Hc & Hf & Ht) He.
    { cbn in Hc. subst data. rewrite zlen_nil in Hd. lia. }
    split; [|discriminate]. destruct pkts as [|p pkts], ms as [|m ms]; cbn [emits] in He; try tauto.
    destruct He as ((nm & w & h & En & _ & _ & _ & _ & Lw & _ & _ & L16 & _) & _). exfalso.
    assert (zlen b = ps0) as Lb.
    { destruct l as [|c l]; [|apply (Ht [] b (c :: l) eq_refl); discriminate].
      inversion Hf as [|? ? (_ & L) _]; subst. cbn [concat] in Hd. rewrite app_nil_r in Hd. lia. }
    assert (nm = nx) as ->.
    { unfold impl_name, uses_name_id in *. destruct (im_schema i); [congruence|congruence|discriminate]. }
    assert (final_id i id match l with [] => true | _ => false end = None) as Ef.
    { unfold final_id, uses_name_id in *. destruct (im_schema i); [reflexivity|reflexivity|discriminate]. }
    rewrite Ef in Lw. unfold data_len in *. rewrite zlen_nil in Hmax. lia. }
  destruct (chunk_data P o i id data out) as [[[[meta total] next]|e] out'].
  - destruct R as (ps & l & pkts & ms & Eps & _ & Hc & _ & He & L & _).
    rewrite Eps0 in Eps. apply Ok_inj in Eps. subst ps.
    destruct (X l pkts ms Hc He) as (-> & Hl). destruct l; [congruence|discriminate].
  - destruct R as [(R & _)|(ps & l & pkts & ms & Eps & _ & Hc & -> & He & _)]; [congruence|].
    rewrite Eps0 in Eps. apply Ok_inj in Eps. subst ps.
    destruct (X l pkts ms Hc He) as (-> & _). rewrite app_nil_r. eauto.
Qed.
Theorem C25_large_refuted : exists (o : opts toy) i data,
  empty_fits o i /\ all_bytes data /\ zlen data < 2 ^ 24 /\
  exists e, chunk_data toy o i 0 data [] = (Err e, []).
Proof.
  set (n := ex_name [97]). set (o := ex_opts Prefixed 65536). set (i := mkImpl 1 (SPrefix (Some n) None None)).
  assert (E : empty_fits o i).
  { exists (Some n). do 2 eexists. split; [reflexivity|]. split; [vm_compute; reflexivity|].
    split; [vm_compute; reflexivity|]. vm_compute. reflexivity. }
  exists o, i, (repeat 7 (Z.to_nat 65536)). split; [exact E|].
  split; [intros x Hx; apply repeat_spec in Hx; lia|].
  assert (L : zlen (repeat 7 (Z.to_nat 65536)) = 65536) by (unfold zlen; rewrite repeat_length; lia).
  split; [rewrite L; lia|]. destruct (empty_fits_size _ _ _ E) as (ps & Eps).
  apply (C25_large toy o i 0 _ [] ps Eps); [reflexivity|cbn; lia|rewrite L].
  apply payload_size_ok in Eps as (nx & _ & _ & _ & _ & Hmax). change (op_max o) with 65536 in Hmax.
  assert (0 <= data_len nx (op_dexp o) [] (if uses_name_id i then Some MAX_CHUNK_ID else None)); [|lia].
  unfold data_len. pose proof (zlen_nonneg (@nil Z)). change (op_dexp o) with (@None fl). change (uses_name_id i) with false.
  cbn [exp_len fcid_len]. assert (0 <= name_len nx); [|unfold bytes in *; lia]. unfold name_len. destruct nx; [|lia].
  destruct (name_tlv _) as [t|]; [|lia]. pose proof (tlv_len_ge t). lia.
Qed.

(* ---------------- C26 ---------------- *)

(* the name component of type chunk id with this number *)
Definition chunk_comp (n : Z) : comp := mkComp 5 KArray (be_bytes (Z.to_nat (int_width n)) n).

Lemma number_bytes n a : 0 <= n < 2 ^ 64 -> number_to_array n = Ok a -> a = be_bytes (Z.to_nat (int_width n)) n.
Proof.
  intros Hn H. apply number_to_array_ok in H as (_ & Hb & Hv & Hl).
  rewrite (be_bytes_unique a) by exact Hb. rewrite array_to_number_be in Hv by exact Hb.
  rewrite be_value_acc. rewrite Hv, Z.mod_small by lia. f_equal.
  fold (int_width n) in Hl. unfold zlen in Hl. lia.
Qed.

(* The options select the prefix of the data names. *)
Definition data_prefix {P} (o : opts P) : option name :=
  match op_dprefix o with Some n => Some n | None => op_name o end.

Lemma nctx_segmented P (o : opts P) nc x : op_type o = Segmented -> nctx_create P o nc = Ok x ->
  exists n, data_prefix o = Some n /\ nx_data x = mkImpl (nc + 1) (SSeg (Some n) (Some T_CHUNKID) None None).
Proof.
  intros T H. unfold nctx_create in H. rewrite T in H. unfold create_segmented, prefixes in H.
  apply bind_ok in H as (u & G & H). apply guard_ok in G. apply bind_ok in H as (e & Ee & H).
  apply bind_ok in H as (u' & G' & H). apply guard_ok in G'. unfold create_named in H. rewrite Ee in H. cbn [bind] in H.
  destruct e; [discriminate|]. unfold nctx_two in H. apply bind_ok in H as (m & Em & H).
  apply bind_ok in H as (d & Ed & H). apply Ok_inj in H. subst x. cbn [nx_data].
  unfold schema_create in Ed. rewrite T in Ed. unfold impl_make in Ed. apply bind_ok in Ed as (? & _ & Ed).
  apply bind_ok in Ed as (? & _ & Ed). apply Ok_inj in Ed. subst d. unfold data_prefix.
  destruct (op_dprefix o) as [n|]; [eauto|]. destruct (op_name o) as [n|]; [eauto|discriminate].
Qed.
Lemma nctx_other P (o : opts P) nc x : op_type o <> Segmented -> nctx_create P o nc = Ok x ->
  uses_name_id (nx_data x) = false.
Proof.
  intros T H.
  assert (S : forall nc l n b i, schema_create P o nc l n b = Ok i -> uses_name_id i = false).
  { intros nc' l n b i E. unfold schema_create, impl_make in E. destruct (op_type o); [| |congruence];
      (apply bind_ok in E as (? & _ & E); apply bind_ok in E as (? & _ & E); apply Ok_inj in E; subst i; reflexivity). }
  assert (S1 : forall l n, nctx_one P o nc l n = Ok x -> uses_name_id (nx_data x) = false).
  { intros l n E. unfold nctx_one in E. apply bind_ok in E as (? & E1 & E). apply Ok_inj in E. subst x. cbn [nx_data]. eauto. }
  assert (S2 : forall a b c d, nctx_two P o nc a b c d = Ok x -> uses_name_id (nx_data x) = false).
  { intros a b c d E. unfold nctx_two in E. apply bind_ok in E as (? & _ & E). apply bind_ok in E as (? & E1 & E).
    apply Ok_inj in E. subst x. cbn [nx_data]. eauto. }
  unfold nctx_create in H. destruct (op_type o); [| |congruence].
  - unfold create_hashed in H. apply bind_ok in H as (? & _ & H). destruct (links_eq _ _); eauto.
  - unfold prefixes, create_named in H. apply bind_ok in H as (e & _ & H). destruct e; eauto.
Qed.

Theorem C26_segmented : forall P (o : opts P) nc x data out meta total next out',
  op_type o = Segmented -> nctx_create P o nc = Ok x ->
  chunk_data P o (nx_data x) 0 data out = (Ok (meta, total, next), out') ->
  exists n pkts, data_prefix o = Some n /\ out' = out ++ pkts /\ next = zlen pkts /\
    forall k p, nth_error pkts k = Some p -> exists b,
      p_body p = BCO (mkCO (Some (n ++ [chunk_comp (Z.of_nat k)])) (Some PT_DATA) (Some b) (op_dexp o)
                        (if Nat.eqb (S k) (length pkts) then Some (Z.of_nat k) else None)).
Proof.
  intros P o nc x data out meta total next out' T Hx H.
  destruct (nctx_segmented _ _ _ _ T Hx) as (n & En & Ei). exists n.
  pose proof (chunk_data_run P o (nx_data x) 0 data out) as R. unfold run in R. rewrite H in R.
  destruct R as (ps & l & pkts & ms & _ & _ & _ & -> & He & L & X). injection X as -> -> ->.
  exists pkts. split; [exact En|]. split; [reflexivity|]. split; [unfold zlen; lia|].
  pose proof (emits_nth _ _ _ _ _ _ _ He) as (L1 & _ & Hn). intros k p Hp.
  assert (k < length pkts)%nat as Lk by (apply nth_error_Some; congruence).
  destruct (nth_error l k) as [b|] eqn:Hb; [|apply nth_error_None in Hb; lia].
  destruct (nth_error ms k) as [m|] eqn:Hm; [|apply nth_error_None in Hm; lia].
  destruct (Hn _ _ _ _ (conj Hb (conj Hp Hm))) as (nm & w & h & Enm & Eb & _ & _ & _ & _ & _ & Hk & _).
  exists b. rewrite Eb. rewrite Ei in Enm |- *. unfold impl_name, final_id in *. cbn [im_schema] in *.
  apply bind_ok in Enm as (a & Ea & Enm). apply bind_ok in Enm as (? & _ & Enm). apply bind_ok in Enm as (? & _ & Enm).
  apply Ok_inj in Enm. subst nm. apply number_bytes in Ea; [|unfold MAX_CHUNK_ID in Hk; lia]. subst a.
  rewrite Z.eqb_refl, L. cbn [andb]. rewrite Z.add_0_l. reflexivity.
Qed.

Theorem C26_others : forall P (o : opts P) nc x id data out r out',
  op_type o <> Segmented -> nctx_create P o nc = Ok x ->
  chunk_data P o (nx_data x) id data out = (r, out') ->
  exists pkts, out' = out ++ pkts /\
    Forall (fun p => exists c, p_body p = BCO c /\ co_fcid c = None /\ impl_name (nx_data x) None = Ok (co_name c)) pkts.
Proof.
  intros P o nc x id data out r out' T Hx H. apply nctx_other in Hx; [|exact T].
  pose proof (chunk_data_run P o (nx_data x) id data out) as R. unfold run in R. rewrite H in R.
  assert (X : forall l id pkts ms, emits P o (nx_data x) id l pkts ms ->
    Forall (fun p => exists c, p_body p = BCO c /\ co_fcid c = None /\ impl_name (nx_data x) None = Ok (co_name c)) pkts).
  { induction l as [|b l IH]; intros id' [|p pkts] [|m ms] He; cbn [emits] in He; try tauto; try constructor.
    - destruct He as ((nm & w & h & En & Eb & _) & _). eexists. split; [exact Eb|]. cbn [co_fcid co_name].
      unfold final_id, impl_name, uses_name_id in *. destruct (im_schema (nx_data x)); try discriminate; auto.
    - destruct He as (_ & He). eapply IH; eauto. }
  destruct r as [[[meta total] next]|e].
  - destruct R as (ps & l & pkts & ms & _ & _ & _ & -> & He & _). eauto.
  - destruct R as [(_ & ->)|(ps & l & pkts & ms & _ & _ & _ & -> & He & _)]; [|eauto].
    exists []. split; [now rewrite app_nil_r|constructor].
Qed.

(* ---------------- cases ---------------- *)

(* 600 bytes in packets of at most 300 bytes: three chunks, for every schema *)
Example ex_chunks : forall ty, exists x meta d0 d1 d2,
  nctx_create toy (ex_opts ty 300) 1 = Ok x /\ empty_fits (ex_opts ty 300) (nx_data x) /\ sha_ok toy /\
  op_max (ex_opts ty 300) < 2 ^ 16 /\ all_bytes (repeat 7 600) /\
  chunk_data toy (ex_opts ty 300) (nx_data x) 0 (repeat 7 600) [] = (Ok (meta, 600, 3), [d0; d1; d2]).
Proof.
  intros ty.
  assert (X : match nctx_create toy (ex_opts ty 300) 1 with
              | Ok x => match chunk_data toy (ex_opts ty 300) (nx_data x) 0 (repeat 7 600) [] with
                        | (Ok (meta, t, n), l) => (t, n, length l)
                        | _ => (0, 0, 0%nat)
                        end
              | _ => (0, 0, 0%nat)
              end = (600, 3, 3%nat)) by (destruct ty; vm_compute; reflexivity).
  assert (F : match nctx_create toy (ex_opts ty 300) 1 with
              | Ok x => empty_fits (ex_opts ty 300) (nx_data x)
              | _ => True end).
  { destruct ty.
    all: match goal with |- match ?n with _ => _ end => let v := eval vm_compute in n in change n with v end; cbv beta iota.
    all: unfold empty_fits; eexists; do 2 eexists.
    all: split; [vm_compute; reflexivity|]; split; [vm_compute; reflexivity|]; split; [vm_compute; reflexivity|].
    all: vm_compute; reflexivity. }
  destruct (nctx_create toy _ 1) as [x|]; [|discriminate].
  destruct (chunk_data toy _ _ _ _ _) as [[[[meta t] n]|] l] eqn:E; [|discriminate].
  injection X as -> -> L. destruct l as [|d0 [|d1 [|d2 [|]]]]; try discriminate.
  exists x, meta, d0, d1, d2. split; [reflexivity|]. split; [exact F|]. split.
  { intros b. split; [|apply repeat_length]. intros y Hy. apply repeat_spec in Hy. subst y. unfold toy_sum. lia. }
  split; [reflexivity|]. split; [intros y Hy; apply repeat_spec in Hy; lia|exact E].
Qed.

Print Assumptions C24_chunks.
Print Assumptions C24_cut_unique.
Print Assumptions C25_fits.
Print Assumptions C25_never_fails.
Print Assumptions C25_tight.
Print Assumptions C25_large.
Print Assumptions C25_large_refuted.
Print Assumptions C26_segmented.
Print Assumptions C26_others.
