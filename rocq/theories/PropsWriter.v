(* C67: what the arguments of manifest_writer do to the packets. *)
From Coq Require Import ZArith List Bool Lia ZifyBool.
From Verif Require Import Py Tlv Spec WireSpec Float FloatProofs Core TlvProofs CoreProofs PropsCore Flic FlicProofs PropsFlic Crypto CryptoProofs
  PropsCrypto Optimizer OptimizerProofs Tree TreeSpec TreeProofs TreeFacts PropsOptimizer PropsTree ChunkProofs SizeProofs
  PropsChunk BuildProofs Store StoreSpec StoreProofs PropsStore Traversal TraversalSpec TraversalProofs EndSpec EndProofs
  ReadProofs PropsEnd PropsAuth PropsNames PropsOptions PropsDir Uri PropsUri Apps PropsApps.
Import ListNotations.
Open Scope Z_scope.
Opaque tlv_make tlv_wire tlv_deserialize.

(* ---------------- specification ---------------- *)

(* an expiry time given in milliseconds is the float next to it *)
Definition time_given (m : option Z) (e : option fl) : Prop :=
  match m with None => e = None | Some m => exists f, ts_of_msec m = Ok f /\ e = Some f end.
(* a locator given as URI *)
Definition locator_given (u : option text) (l : option (list link)) : Prop :=
  match u with
  | None => l = None
  | Some u => exists n, from_uri (Some u) = Ok n /\ l = Some [mkLink n None None]
  end.

Section Given.
Context {P : prims} (hash : bytes -> Z) (fr : fresh).
Definition signer_given (c : cargs P) (s : option (signer P)) : Prop :=
  match ca_key c with
  | None => s = None
  | Some k => exists sk, k = RPriv sk /\ s = Some (SRsa sk)
  end.
Definition kdf_given (c : cargs P) : option kdf :=
  match ca_kdf c with
  | None => None
  | Some i => Some (mkKdf (match i with HkdfSha256 => 1 | HkdfSha384 => 2 | HkdfSha512 => 3 end) (ca_info c))
  end.
(* the key and the parameters with it: those given, or fresh ones for a content
   key that is wrapped *)
Definition params_given (c : cargs P) (p : aparams) : Prop :=
  match ca_enc c with
  | Some k => p = mkAP (mkAK (ca_mode c) k) (match ca_num c with Some n => n | None => hash k end) (ca_salt c) (kdf_given c) (ca_kdf_salt c)
  | None => p = mkAP (mkAK GCM (fr_key fr)) (fr_num fr) (Some (fr_salt fr)) (kdf_given c) None
  end.
Definition encryptor_given (c : cargs P) (e : encryptor) : Prop :=
  match ca_wrap c, ca_enc c with
  | None, None => e = ENone
  | None, Some _ => exists p, params_given c p /\ e = EAead p
  | Some w, _ => exists p wr, params_given c p /\ wrapper_create P w (fr_seed fr) p = Ok wr /\ e = EOaep (mkOI (Some wr) p)
  end.
Record follows (a : wargs P) (o : opts P) : Prop :=
  { fw_name : from_uri (Some (wa_name a)) = Ok (op_name o);
    fw_type : op_type o = wa_schema a;
    fw_mprefix : from_uri (wa_mprefix a) = Ok (op_mprefix o);
    fw_dprefix : from_uri (wa_dprefix a) = Ok (op_dprefix o);
    fw_mloc : locator_given (wa_mloc a) (op_mlocs o);
    fw_dloc : locator_given (wa_dloc a) (op_dlocs o);
    fw_rexp : time_given (wa_rexp a) (op_rexp o);
    fw_mexp : time_given (wa_mexp a) (op_mexp o);
    fw_dexp : time_given (wa_dexp a) (op_dexp o);
    fw_signer : signer_given (wa_c a) (op_signer o);
    fw_enc : encryptor_given (wa_c a) (op_enc o);
    fw_degree : op_degree o = wa_degree a;
    fw_max : op_max o = wa_max a;
    fw_sizes : op_nsize o = true /\ op_gsize o = false /\ op_gleaf o = false }.
End Given.

(* ---------------- the options are those given ---------------- *)

Lemma kdf_is P (c : cargs P) d : cli_kdf P c = Ok d -> d = kdf_given c.
Proof.
  unfold cli_kdf, kdf_given. destruct (ca_kdf c) as [i|]; intros H; [|apply Ok_inj in H; auto].
  apply bind_ok in H as (? & _ & H). apply Ok_inj in H. subst d. destruct i; reflexivity.
Qed.
Lemma params_are P (c : cargs P) k n p : cli_params P c k n = Ok p -> p = mkAP k n (ca_salt c) (kdf_given c) (ca_kdf_salt c).
Proof. unfold cli_params. intros H. apply bind_ok in H as (d & D & H). apply kdf_is in D. subst d. apply ap_make_same in H as [-> _]. reflexivity. Qed.
Lemma locator_is u l : locators_from_uri u = Ok l -> locator_given u l.
Proof.
  unfold locators_from_uri, locator_given. destruct u as [u|]; intros H; [|apply Ok_inj in H; auto].
  apply bind_ok in H as (n & N & H). apply bind_ok in H as (? & _ & H). apply Ok_inj in H. subst l. eauto.
Qed.
Lemma time_is m e : cli_time m = Ok e -> time_given m e.
Proof.
  unfold cli_time, time_given. destruct m as [m|]; intros H; [|apply Ok_inj in H; auto].
  apply bind_ok in H as (f & F & H). apply bind_ok in H as (? & _ & H). apply Ok_inj in H. subst e. eauto.
Qed.
Lemma enc_is P hash fr (c : cargs P) e : cli_encryptor P fr (default_num P hash c) = Ok e -> encryptor_given hash fr c e.
Proof.
  intros H. set (c' := default_num P hash c) in *.
  assert (ca_wrap c' = ca_wrap c /\ ca_enc c' = ca_enc c /\ ca_mode c' = ca_mode c /\ ca_salt c' = ca_salt c /\ kdf_given c' = kdf_given c /\ ca_kdf_salt c' = ca_kdf_salt c /\
    forall k, ca_enc c = Some k -> ca_num c' = Some (match ca_num c with Some n => n | None => hash k end)) as (E1 & E2 & E3 & E4 & E5 & E6 & E7).
  { unfold c', default_num. destruct (ca_enc c) as [k|] eqn:E, (ca_num c) as [n|] eqn:N; cbn; repeat split; auto; intros k' [= <-]; auto. }
  clearbody c'. unfold cli_encryptor in H. apply bind_ok in H as (k & K & H). apply cli_aes_key_ok in K. rewrite E2, E3 in K. subst k. rewrite E1 in H.
  unfold encryptor_given, params_given. destruct (ca_wrap c) as [w|], (ca_enc c) as [k|].
  - rewrite (E7 k eq_refl) in H. apply bind_ok in H as (p & A & H). apply params_are in A. apply bind_ok in H as (wr & W & H). apply Ok_inj in H.
    exists p, wr. rewrite E4, E5, E6 in A. auto.
  - apply bind_ok in H as (d & D & H). apply kdf_is in D. apply bind_ok in H as (k & K & H). apply bind_ok in H as (p & A & H). apply bind_ok in H as (wr & W & H). apply Ok_inj in H.
    unfold aeadkey_make in K. apply bind_ok in K as (? & _ & K). apply Ok_inj in K. apply ap_make_same in A as [-> _]. rewrite E5 in D. subst d k. eauto.
  - rewrite (E7 k eq_refl) in H. apply bind_ok in H as (p & A & H). apply params_are in A. apply Ok_inj in H. rewrite E4, E5, E6 in A. eauto.
  - apply Ok_inj in H. auto.
Qed.
Lemma signer_is P hash (c : cargs P) s : cli_signer P (default_num P hash c) = Ok s -> signer_given c s.
Proof.
  unfold cli_signer, signer_given. replace (ca_key (default_num P hash c)) with (ca_key c) by (unfold default_num; destruct (ca_enc c), (ca_num c); reflexivity).
  destruct (ca_key c) as [[sk|pk]|]; intros H; [|discriminate|]; apply Ok_inj in H; subst s; eauto.
Qed.

(* A run that writes anything builds a tree with the options that were given;
   the directory writer makes links as asked. *)
Theorem C67_options : forall P hash fr clog rnd now (a : wargs P) data s r s',
  writer_run P hash fr clog rnd now a data s = (r, s') ->
  (exists e, r = Err e /\ s' = s /\ writer_setup P hash fr now a = Err e) \/
  exists o d, writer_setup P hash fr now a = Ok (o, d) /\ follows hash fr a o /\
    do_link d = wa_link a /\ do_signer d = op_signer o /\ do_now d = now /\
    manifest_tree P clog rnd now o 1 data s = (r, s').
Proof.
  intros P hash fr clog rnd now a data s r s' H. unfold writer_run in H. unfold sbind, lift in H.
  destruct (writer_setup P hash fr now a) as [[o d]|e] eqn:S; [right|left; injection H as <- <-; eauto].
  exists o, d. split; [reflexivity|].
  pose proof (setup_inv _ _ _ _ _ _ _ S) as I. cbv zeta in I.
  destruct I as (A1 & A2 & A3 & A4 & A5 & A6 & A7 & A8 & A9 & A10 & A11 & A12 & _).
  assert (op_degree o = wa_degree a /\ (op_nsize o = true /\ op_gsize o = false /\ op_gleaf o = false) /\
    do_link d = wa_link a /\ cli_signer P (default_num P hash (wa_c a)) = Ok (do_signer d) /\ do_now d = now) as (B1 & B2 & B3 & B4 & B5).
  { unfold writer_setup in S. cbv zeta in S. apply bind_ok in S as (sg & G & S). apply bind_ok in S as (? & _ & S). apply bind_ok in S as (o' & O & S).
    apply Ok_inj in S. injection S as <- <-. unfold writer_options in O. cbn [set_cargs wa_c wa_name wa_mprefix wa_dprefix wa_mloc wa_dloc wa_rexp wa_mexp wa_dexp wa_schema wa_degree wa_max] in O, G.
    repeat (apply bind_ok in O as (? & ? & O)). apply Ok_inj in O. subst o'. cbn. auto. }
  rewrite A3 in B4. apply Ok_inj in B4.
  split; [|auto]. constructor; auto using locator_is, time_is, enc_is. eapply signer_is. exact A3.
Qed.
Print Assumptions C67_options.

(* ---------------- what is seen of them ---------------- *)

Lemma kinds_disjoint P (o : opts P) p : of_kind o false p -> of_kind o true p -> False.
Proof. intros (c & B & T) (nd & c' & m & w & B' & T' & _). rewrite B in B'. injection B' as <-. rewrite T in T'. discriminate. Qed.
Lemma kinds_unique P (o : opts P) ds : forall ds' ms ms', Forall (of_kind o false) ds -> Forall (of_kind o false) ds' ->
  Forall (of_kind o true) ms -> Forall (of_kind o true) ms' -> ds ++ ms = ds' ++ ms' -> ds = ds' /\ ms = ms'.
Proof.
  induction ds as [|d ds IH]; intros [|d' ds'] ms ms' F1 F2 F3 F4 E; cbn [app] in E.
  - auto.
  - exfalso. subst ms. inversion F2; inversion F3; subst. eapply kinds_disjoint; eassumption.
  - exfalso. subst ms'. inversion F1; inversion F4; subst. eapply kinds_disjoint; eassumption.
  - injection E as <- E. inversion F1; inversion F2; subst. destruct (IH ds' ms ms') as (-> & ->); auto.
Qed.

(* The names of the objects: none for a hashed tree, the name of the tree for a
   prefixed tree, prefix and number for a segmented tree. *)
Definition written_name (ty : stype) (nm p : option name) (man : bool) (n : Z) : option name :=
  match ty with
  | Hashed => None
  | Prefixed => nm
  | Segmented => option_map (fun p => p ++ [mkComp (if man then 16 else 5) KArray (be_bytes (Z.to_nat (int_width n)) n)]) p
  end.

Theorem C67_effects : forall P hash fr clog rnd now (a : wargs P) data s root s',
  log_ok clog -> wa_max a <= 2 ^ 24 ->
  writer_run P hash fr clog rnd now a data s = (Ok root, s') ->
  exists o nm mp dp re me de datas mans,
    follows hash fr a o /\
    from_uri (Some (wa_name a)) = Ok nm /\ from_uri (wa_mprefix a) = Ok mp /\ from_uri (wa_dprefix a) = Ok dp /\
    time_given (wa_rexp a) re /\ time_given (wa_mexp a) me /\ time_given (wa_dexp a) de /\
    ms_out s' = ms_out s ++ datas ++ mans ++ [root] /\
    body_name root = nm /\ expires root re /\
    match ca_key (wa_c a) with
    | None => unsigned root
    | Some k => exists sk kid b, k = RPriv sk /\ rsa_keyid P k = Ok kid /\
        p_alg root = Some (VRsa kid None None now) /\ p_vpl root = Some b
    end /\
    (forall j p, nth_error datas j = Some p -> is_data_object p /\ expires p de /\ unsigned p /\
       body_name p = written_name (wa_schema a) nm dp false (Z.of_nat j)) /\
    Forall (fun p => expires p me /\ unsigned p /\ (exists n, 0 <= n < 2 ^ 64 /\ body_name p = written_name (wa_schema a) nm mp true n) /\
      exists nd, holds_node o p nd /\ 1 <= zlen (node_ptrs nd) /\ forall d, wa_degree a = Some d -> zlen (node_ptrs nd) <= d) mans.
Proof.
  intros P hash fr clog rnd now a data s root s' HL HM R.
  pose proof (C67_prefixes P hash fr clog rnd now a data s root s' R) as PF.
  apply C67_options in R as [(e & X & _)|(o & d & _ & F & _ & _ & _ & R)]; [discriminate|].
  assert (op_max o <= 2 ^ 24) as HM' by (rewrite (fw_max _ _ _ _ F); exact HM).
  destruct (C33_names P clog rnd now o 1 data s root s' HL HM' eq_refl R) as (ds & ms & E1 & Nr & N1 & N2 & _).
  destruct (C30_degree P clog rnd now o 1 data s root s' HL HM' R) as (ds2 & ms2 & E2 & K2 & D2 & _).
  destruct (C72_expiry P clog rnd now o 1 data s root s' HL HM' R) as (ds3 & ms3 & E3 & K3 & X3 & _ & Xr & _).
  assert (F1 : Forall (of_kind o false) ds). { apply Forall_forall. intros p Hp. apply In_nth_error in Hp as [j Hj]. apply N1 in Hj as (_ & Hj). exact Hj. }
  assert (F2 : Forall (of_kind o true) ms). { eapply Forall_impl; [|exact N2]. intros p (nd & _ & _ & H & _). exists nd. exact H. }
  assert (F3 : Forall (of_kind o true) ms2). { eapply Forall_impl; [|exact D2]. intros p (nd & H & _). exists nd. exact H. }
  assert (F4 : Forall (of_kind o false) ds3) by (eapply Forall_impl; [|exact K3]; cbv beta; tauto).
  assert (F5 : Forall (of_kind o true) ms3) by (eapply Forall_impl; [|exact X3]; cbv beta; tauto).
  assert (U : forall ds' ms', Forall (of_kind o false) ds' -> Forall (of_kind o true) ms' -> ms_out s' = ms_out s ++ ds' ++ ms' ++ [root] -> ds' = ds /\ ms' = ms).
  { intros ds' ms' A B E. rewrite E1 in E. apply app_inv_head in E. rewrite !app_assoc in E. apply app_inj_tail in E as (E & _). symmetry in E. eapply kinds_unique; eassumption. }
  destruct (U _ _ K2 F3 E2) as (-> & ->). destruct (U _ _ F4 F5 E3) as (-> & ->). clear U F3 F4 F5 E2 E3.
  destruct (C61_protection P clog rnd now o 1 data s _ s' HL HM' R) as (new & En & _ & C).
  assert (new = ds ++ ms ++ [root]) as -> by (rewrite E1 in En; apply app_inv_head in En; auto).
  assert (US : forall p, In p (ds ++ ms) -> unsigned p).
  { intros p Hp. apply in_split in Hp as (l1 & l2 & Hp). specialize (C l1 p (l2 ++ [root])). rewrite app_assoc, Hp, <- app_assoc in C. specialize (C eq_refl).
    destruct (l2 ++ [root]) as [|z zs] eqn:Z; [destruct l2; discriminate|]. destruct C as [(_ & C)|(m & _ & _ & C)]; exact C. }
  destruct (C (ds ++ ms) root []) as (_ & m & _ & _ & Sr); [now rewrite <- app_assoc|].
  exists o, (op_name o), (op_mprefix o), (op_dprefix o), (op_rexp o), (op_mexp o), (op_dexp o), ds, ms.
  split; [exact F|]. split; [apply F|]. split; [apply F|]. split; [apply F|]. split; [apply F|]. split; [apply F|]. split; [apply F|].
  split; [exact E1|]. split; [exact Nr|]. split; [exact Xr|].
  assert (WN : forall (man : bool) n, object_name o man n = written_name (wa_schema a) (op_name o) (if man then op_mprefix o else op_dprefix o) man n).
  { intros man n. unfold object_name, written_name, prefix_of. rewrite (fw_type _ _ _ _ F). destruct (wa_schema a).
    - reflexivity.
    - destruct PF as (P1 & P2). pose proof (fw_mprefix _ _ _ _ F) as Q1. pose proof (fw_dprefix _ _ _ _ F) as Q2. rewrite P1 in Q1. rewrite P2 in Q2.
      cbn in Q1, Q2. apply Ok_inj in Q1, Q2. rewrite <- Q1, <- Q2. destruct man; reflexivity.
    - destruct PF as (P1 & P2). pose proof (fw_mprefix _ _ _ _ F) as Q1. pose proof (fw_dprefix _ _ _ _ F) as Q2.
      destruct (wa_mprefix a) as [u|]; [|congruence]. destruct (wa_dprefix a) as [w|]; [|congruence].
      apply C63_shape in Q1 as (q1 & _ & -> & _). apply C63_shape in Q2 as (q2 & _ & -> & _). destruct man; reflexivity. }
  split.
  { pose proof (fw_signer _ _ _ _ F) as G. unfold signer_given in G. unfold signed in Sr. destruct (ca_key (wa_c a)) as [k|].
    - destruct G as (sk & -> & G). rewrite G in Sr. destruct Sr as ((kid & Kid & Al) & b & Vp). exists sk, kid, b. auto.
    - rewrite G in Sr. exact Sr. }
  split.
  - intros j p Hp. pose proof (N1 j p Hp) as (Nm & Kd). apply nth_error_In in Hp. rewrite Forall_forall in K3. split; [exact Kd|].
    split; [apply K3; exact Hp|]. split; [apply US; apply in_app_iff; auto|]. rewrite Nm. apply (WN false).
  - apply Forall_forall. intros p Hp. rewrite Forall_forall in N2, D2, X3. destruct (X3 p Hp) as (_ & Ex & _). split; [exact Ex|].
    split; [apply US; apply in_app_iff; auto|]. destruct (N2 p Hp) as (_ & n & _ & _ & (Nm & _) & Bn & _). split; [exists n; split; [exact Bn|]; rewrite Nm; apply (WN true)|].
    destruct (D2 p Hp) as (nd & H1 & H2 & H3). rewrite (fw_degree _ _ _ _ F) in H3. eauto.
Qed.
Print Assumptions C67_effects.

(* A segmented run with a degree, a key and expiry times: for each packet its
   name, expiry time and whether it is signed. *)
Definition ex_args : wargs toy :=
  mkWA toy Segmented ex_uri_a None None (Some (ex_uri_a ++ [109])) (Some (ex_uri_a ++ [100])) (Some 3) 400
    (Some 1700000000000) None (Some 1800000000000) true ex_caes.
Definition ex_written (a : wargs toy) (data : bytes) : list (option name * option fl * bool) :=
  map (fun p => (body_name p, match p_body p with BCO c => co_expiry c | _ => None end, negb (is_none (p_alg p))))
    (ms_out (snd (writer_run toy ex_hash ex_fresh exact_log (fun _ => repeat 9 8) (mkFl 0 0) a data (mkMst [] 0)))).
Definition ex_comp (t v : Z) : comp := mkComp t KArray [v].
Example C67_effects_ex :
  wa_max ex_args <= 2 ^ 24 /\
  ex_written ex_args (ex_bytes 1500) =
    map (fun n => (Some [mkComp T_NAMESEGMENT KBytes [97; 100]; ex_comp 5 n], Some (mkFl 7549747200000000 (-22)), false)) [0; 1; 2; 3; 4] ++
    [(Some [mkComp T_NAMESEGMENT KBytes [97; 109]; ex_comp 16 2], None, false);
     (Some [mkComp T_NAMESEGMENT KBytes [97; 109]; ex_comp 16 1], None, false);
     (Some [mkComp T_NAMESEGMENT KBytes [97]], Some (mkFl 7130316800000000 (-22)), true)].
Proof. split; [vm_compute; discriminate|]. vm_compute. reflexivity. Qed.
