(* C57 for whole builds, and for many builds one after another. *)
From Coq Require Import ZArith List Bool Lia ZifyBool Permutation.
From Verif Require Import Py Tlv Float Core TlvProofs CoreProofs PropsCore Flic WireSpec FlicProofs PropsFlic PropsWire Crypto CryptoProofs
  PropsCrypto Optimizer OptimizerProofs Tree TreeSpec TreeProofs TreeFacts PropsOptimizer PropsTree ChunkProofs SizeProofs
  PropsChunk BuildProofs Store StoreProofs PropsStore Traversal TraversalSpec TraversalProofs EndSpec EndProofs PropsEnd PropsAuth.
Import ListNotations.
Open Scope Z_scope.
Opaque tlv_make tlv_wire tlv_deserialize.

(* p carries an encrypted manifest whose nonce is the j-th draw *)
Definition sealed_with (rnd : nat -> bytes) (p : packet) (j : nat) : Prop :=
  exists m c ct, manifest_object p m /\ m_node m = MEnc ct /\ m_ctx m = Some c /\ a_nonce (ctx_aead c) = rnd j.
(* p carries a manifest in the clear *)
Definition clear_manifest (p : packet) : Prop := exists m n, manifest_object p m /\ m_node m = MNode n.

(* js gives for each packet the draw it is sealed with, if it is; [enc] says
   whether manifests are encrypted *)
Definition uses (rnd : nat -> bytes) (enc : Prop) (ps : list packet) (js : list (option nat)) : Prop :=
  Forall2 (fun p j => match j with
                      | Some j => sealed_with rnd p j
                      | None => is_data_object p \/ (clear_manifest p /\ ~ enc)
                      end) ps js.
(* the draws used *)
Definition draws_of (js : list (option nat)) : list nat := flat_map (fun j => match j with Some j => [j] | None => [] end) js.

Lemma draws_of_app a b : draws_of (a ++ b) = draws_of a ++ draws_of b.
Proof. apply flat_map_app. Qed.
Lemma uses_app rnd enc a b ja jb : uses rnd enc a ja -> uses rnd enc b jb -> uses rnd enc (a ++ b) (ja ++ jb).
Proof. apply Forall2_app. Qed.

Lemma data_uses P rnd enc (o : opts P) i id l pkts meta : emits P o i id l pkts meta ->
  uses rnd enc pkts (map (fun _ => None) pkts) /\ draws_of (map (fun _ => None) pkts) = [].
Proof.
  intros H. assert (F : Forall is_data_object pkts).
  { apply Forall_forall. intros p Hp. now apply (data_unsigned P o i id l pkts meta p H). }
  clear H. induction F as [|p pkts Hp F IH]; [split; [constructor|reflexivity]|]. destruct IH as (A & B). split; [|exact B].
  constructor; [now left|exact A].
Qed.

(* the draw of a manifest made by the builder *)
Definition draw_of {P} (o : opts P) (k : nat) : option nat := match op_enc o with ENone => None | _ => Some k end.
Lemma manifest_uses P rnd (o : opts P) inc nd k m p : manifest_object p m ->
  match op_enc o with
  | ENone => m = mkMan None (MNode nd) None
  | EAead a => aead_create_manifest P a (rnd k) nd = Ok m
  | EOaep i => oaep_create_manifest P i inc (rnd k) nd = Ok m
  end ->
  match draw_of o k with
  | Some j => sealed_with rnd p j
  | None => is_data_object p \/ (clear_manifest p /\ ~ op_enc o <> ENone)
  end.
Proof.
  intros Mo H. unfold draw_of. destruct (op_enc o) as [|a|i].
  - right. split; [|intros X; now apply X]. exists m, nd. now subst m.
  - apply aead_create_ok in H as (md & ct & tag & _ & _ & -> & _). eexists _, _, ct. split; [exact Mo|]. split; [reflexivity|]. split; reflexivity.
  - apply oaep_create_ok in H as (md & ct & tag & _ & _ & ->). eexists _, _, ct. split; [exact Mo|]. split; [reflexivity|]. split; reflexivity.
Qed.

Lemma forest_in ts i : In i (forest_infos ts) -> exists t, In t ts /\ In i (infos t).
Proof.
  unfold forest_infos. intros Hi. apply in_concat in Hi as (li & Hl & Hi). apply in_rev in Hl. apply in_map_iff in Hl as (t & <- & Ht). eauto.
Qed.
Lemma tree_uses P rnd now (v : tenv P) ts : ctx_wf (te_ctx v) -> Forall (fun t => exists lv, wf P rnd now v lv t) ts ->
  uses rnd (op_enc (te_opt v) <> ENone) (map mi_pkt (forest_infos ts)) (map (fun i => draw_of (te_opt v) (mi_nonce i)) (forest_infos ts)).
Proof.
  intros Hx W. rewrite Forall_forall in W.
  assert (F : forall i, In i (forest_infos ts) -> carries P rnd v (mi_node i) (mi_nonce i) (mi_name i) (mi_pkt i)).
  { intros i Hi. apply forest_in in Hi as (t & Ht & Hi). destruct (W t Ht) as (lv & Wt). apply (Permutation_in _ (infos_subtrees t)) in Hi.
    apply in_map_iff in Hi as (u & <- & Hu). destruct (wf_sub P rnd now v t lv Wt u Hu) as (l' & _ & Wu). now apply wf_faithful in Wu as (Hc & _). }
  clear W. unfold uses. induction (forest_infos ts) as [|i is IH]; [constructor|]. cbn [map]. constructor.
  - destruct (F i (or_introl eq_refl)) as (m & w & Hm & Hw & _ & Hb & _). eapply (manifest_uses P rnd (te_opt v) false); [|exact Hm].
    eexists _, w. split; [exact Hb|]. auto.
  - apply IH. intros j Hj. apply F. now right.
Qed.

Lemma seq_from a b c : seq (a + b) c = map (fun j => a + j)%nat (seq b c).
Proof. revert b. induction c as [|c IH]; intros b; [reflexivity|]. cbn [seq map]. f_equal. rewrite <- IH. f_equal. lia. Qed.
Lemma tree_draws P (v : tenv P) is k : map mi_nonce is = map (fun j => k + j * nstep P v)%nat (seq 0 (length is)) ->
  draws_of (map (fun i => draw_of (te_opt v) (mi_nonce i)) is) = seq k (length is * nstep P v).
Proof.
  unfold nstep, draw_of. intros H. destruct (op_enc (te_opt v)).
  - clear H. rewrite Nat.mul_0_r. induction is as [|i is IH]; [reflexivity|exact IH].
  - assert (E : draws_of (map (fun i => Some (mi_nonce i)) is) = map mi_nonce is) by (clear; induction is as [|i is IH]; [reflexivity|]; cbn; now rewrite <- IH).
    rewrite E, H, Nat.mul_1_r. replace (seq k (length is)) with (seq (k + 0) (length is)) by now rewrite Nat.add_0_r. rewrite seq_from. apply map_ext. intros; lia.
  - assert (E : draws_of (map (fun i => Some (mi_nonce i)) is) = map mi_nonce is) by (clear; induction is as [|i is IH]; [reflexivity|]; cbn; now rewrite <- IH).
    rewrite E, H, Nat.mul_1_r. replace (seq k (length is)) with (seq (k + 0) (length is)) by now rewrite Nat.add_0_r. rewrite seq_from. apply map_ext. intros; lia.
Qed.

(* Whether it succeeds or not, a build seals each of its encrypted manifests
   with a draw of its own: they are consecutive and lie between the counters
   before and after.  A successful build uses every draw it makes except the
   first two, with which it seals the manifests it only measures. *)
Theorem C57_build : forall P clog rnd now (o : opts P) nc data s r s', log_ok clog -> op_max o <= 2 ^ 24 ->
  manifest_tree P clog rnd now o nc data s = (r, s') ->
  exists new js a, ms_out s' = ms_out s ++ new /\ uses rnd (op_enc o <> ENone) new js /\
    draws_of js = seq a (length (draws_of js)) /\ (ms_nonce s <= a /\ a + length (draws_of js) <= ms_nonce s')%nat /\
    (forall root, r = Ok root -> op_enc o <> ENone -> (a = ms_nonce s + 2 /\ ms_nonce s' = a + length (draws_of js))%nat).
Proof.
  intros P clog rnd now o nc data s r s' HL HM H.
  apply (manifest_tree_ended P clog rnd now o nc data HL HM) in H as R. clear H. unfold ended in R.
  destruct r as [root|e].
  - destruct R as (k' & x & ps & l & pkts & meta & num & r & lv & t & np & b & k2 & SU & RS & RP & ->). cbn [ms_out ms_nonce].
    pose proof (su_ctx _ _ _ _ _ _ _ _ _ _ _ _ _ _ _ _ SU) as Hx. apply nctx_create_wf in Hx.
    pose proof (max_pointers_draws P rnd now o x (zlen data) (ms_nonce s)) as (_ & Dm).
    rewrite (su_num _ _ _ _ _ _ _ _ _ _ _ _ _ _ _ _ SU) in Dm. cbn [fst snd] in Dm. specialize (Dm _ eq_refl).
    pose proof (root_packet_draws P rnd now o x (zlen data) (mi_pkt (top t)) (b_nonce b)) as (_ & Dr). rewrite RP in Dr. cbn [fst snd] in Dr. specialize (Dr _ eq_refl).
    set (v := env_of P o x meta r) in *.
    destruct (data_uses P rnd (op_enc o <> ENone) o _ _ _ _ _ (su_emits _ _ _ _ _ _ _ _ _ _ _ _ _ _ _ _ SU)) as (Du & Dd).
    pose proof (tree_uses P rnd now v [t] Hx ltac:(constructor; [exists lv; apply RS|constructor])) as Tu. rewrite forest_infos_one in Tu.
    pose proof (tree_draws P v (infos t) k' (rs_nonces _ _ _ _ _ _ _ _ _ _ RS)) as Td.
    pose proof (rs_nonce _ _ _ _ _ _ _ _ _ _ RS) as Tn.
    apply root_inv in RP as (h & m & w & _ & Hm & Hw & _ & _ & Hb & _).
    assert (Ru : uses rnd (op_enc o <> ENone) [root] [draw_of o (b_nonce b)]).
    { constructor; [|constructor]. eapply (manifest_uses P rnd o true); [|exact Hm]. eexists _, w. split; [exact Hb|]. auto. }
    exists (pkts ++ map mi_pkt (infos t) ++ [root]), (map (fun _ => None) pkts ++ map (fun i => draw_of o (mi_nonce i)) (infos t) ++ [draw_of o (b_nonce b)]), k'.
    split; [reflexivity|]. split; [apply uses_app; [exact Du|]; apply uses_app; [exact Tu|exact Ru]|].
    rewrite !draws_of_app, Dd. cbn [app].
    change (draws_of (map (fun i => draw_of o (mi_nonce i)) (infos t)) = seq k' (length (infos t) * nstep P v)) in Td. rewrite Td.
    assert (Rd : draws_of [draw_of o (b_nonce b)] = seq (b_nonce b) (per_manifest o)) by (unfold draw_of, per_manifest; destruct (op_enc o); reflexivity).
    rewrite Rd, app_length, !seq_length, Tn, <- seq_app. split; [reflexivity|]. split; [lia|]. intros root' _ En.
    assert (per_manifest o = 1%nat) as Hp by (unfold per_manifest; destruct (op_enc o); [now elim En|reflexivity..]). lia.
  - destruct R as (Ln & pkts & ts & Eo & R). destruct pkts as [|p pkts]; [destruct ts as [|t ts]|].
    + exists [], [], (ms_nonce s). split; [exact Eo|]. split; [constructor|]. split; [reflexivity|]. split; [cbn; lia|]. intros root [=].
    + destruct R as (x & ps & l & meta & Hx & _ & _ & _ & He & R); [right; discriminate|].
      destruct R as (k' & num & r & SU & W & D1 & D2); [discriminate|]. apply nctx_create_wf in Hx. set (v := env_of P o x meta r) in *.
      pose proof (max_pointers_draws P rnd now o x (zlen data) (ms_nonce s)) as (Dm & _).
      rewrite (su_num _ _ _ _ _ _ _ _ _ _ _ _ _ _ _ _ SU) in Dm. cbn [fst snd] in Dm.
      pose proof (tree_uses P rnd now v (t :: ts) Hx W) as Tu. pose proof (tree_draws P v _ k' D1) as Td.
      eexists _, _, k'. split; [exact Eo|]. split; [exact Tu|]. rewrite Td, seq_length. split; [reflexivity|]. split; [lia|]. intros root [=].
    + destruct R as (x & ps & l & meta & Hx & _ & _ & _ & He & R); [left; discriminate|].
      destruct (data_uses P rnd (op_enc o <> ENone) o _ _ _ _ _ He) as (Du & Dd). destruct ts as [|t ts].
      * eexists _, _, (ms_nonce s). split; [exact Eo|]. cbn [forest_infos map rev concat]. rewrite app_nil_r. split; [exact Du|]. rewrite Dd. split; [reflexivity|].
        split; [cbn; lia|]. intros root [=].
      * destruct R as (k' & num & r & SU & W & D1 & D2); [discriminate|]. apply nctx_create_wf in Hx. set (v := env_of P o x meta r) in *.
        pose proof (max_pointers_draws P rnd now o x (zlen data) (ms_nonce s)) as (Dm & _).
        rewrite (su_num _ _ _ _ _ _ _ _ _ _ _ _ _ _ _ _ SU) in Dm. cbn [fst snd] in Dm.
        pose proof (tree_uses P rnd now v (t :: ts) Hx W) as Tu. pose proof (tree_draws P v _ k' D1) as Td.
        eexists _, _, k'. split; [exact Eo|]. split; [apply uses_app; [exact Du|exact Tu]|]. rewrite draws_of_app, Dd. cbn [app].
        rewrite Td, seq_length. split; [reflexivity|]. split; [lia|]. intros root [=].
Qed.
Print Assumptions C57_build.

(* Builds one after another in the same process, with any options, whether or
   not they succeed *)
Record job (P : prims) := mkJob { jb_opts : opts P; jb_nc : Z; jb_data : bytes; jb_now : fl }.
Definition run_jobs (P : prims) (clog : Z -> Z -> Z -> Z) (rnd : nat -> bytes) (jobs : list (job P)) (s : mst) : mst :=
  fold_left (fun s j => snd (manifest_tree P clog rnd (jb_now P j) (jb_opts P j) (jb_nc P j) (jb_data P j) s)) jobs s.

Lemma seq_range_nodup a n : NoDup (seq a n) /\ Forall (fun j => a <= j < a + n)%nat (seq a n).
Proof. split; [apply seq_NoDup|]. apply Forall_forall. intros j Hj. apply in_seq in Hj. lia. Qed.

Lemma nodup_both (a b : list nat) : NoDup a -> NoDup b -> (forall x, In x a -> In x b -> False) -> NoDup (a ++ b).
Proof.
  intros A B D. induction A as [|x a Hx A IH]; [exact B|]. cbn [app]. constructor.
  - intros X. apply in_app_iff in X as [X|X]; [contradiction|]. apply (D x); [now left|exact X].
  - apply IH. intros y Y. apply D. now right.
Qed.
(* No draw seals two manifests, so that none of their nonces are equal as long
   as the generator does not repeat itself. *)
Theorem C57_builds : forall P clog rnd (jobs : list (job P)) s, log_ok clog -> Forall (fun j => op_max (jb_opts P j) <= 2 ^ 24) jobs ->
  exists new js, ms_out (run_jobs P clog rnd jobs s) = ms_out s ++ new /\ uses rnd False new js /\
    NoDup (draws_of js) /\ Forall (fun j => ms_nonce s <= j < ms_nonce (run_jobs P clog rnd jobs s))%nat (draws_of js) /\
    ((forall i j, rnd i = rnd j -> i = j) -> NoDup (map rnd (draws_of js))).
Proof.
  intros P clog rnd jobs s HL HM.
  cut (exists new js, ms_out (run_jobs P clog rnd jobs s) = ms_out s ++ new /\ uses rnd False new js /\
    NoDup (draws_of js) /\ Forall (fun j => ms_nonce s <= j < ms_nonce (run_jobs P clog rnd jobs s))%nat (draws_of js) /\
    (ms_nonce s <= ms_nonce (run_jobs P clog rnd jobs s))%nat).
  { intros (new & js & A & B & C & D & _). exists new, js. do 4 (split; [assumption|]). intros Inj. clear - C Inj.
    induction C as [|j l Nj C IH]; cbn [map]; constructor; [|exact IH]. intros X. apply in_map_iff in X as (i & E & Hi). apply Inj in E. now subst i. }
  revert s. induction HM as [|j jobs Hj HM IH]; intros s.
  - exists [], []. cbn. split; [now rewrite app_nil_r|]. split; [constructor|]. split; [constructor|]. split; [constructor|lia].
  - unfold run_jobs in *. cbn [fold_left].
    destruct (manifest_tree P clog rnd (jb_now P j) (jb_opts P j) (jb_nc P j) (jb_data P j) s) as [r s1] eqn:E. cbn [snd].
    destruct (C57_build _ _ _ _ _ _ _ _ _ _ HL Hj E) as (new & js & a & O & U & D & (L1 & L2) & _).
    destruct (IH s1) as (new' & js' & O' & U' & N' & F' & L'). set (s2 := fold_left _ jobs s1) in *.
    exists (new ++ new'), (js ++ js'). split; [rewrite O', O; now rewrite app_assoc|]. split; [|split; [|split]].
    + apply uses_app; [|exact U']. clear - U. induction U as [|p q l l' H U IH]; constructor; [|exact IH]. destruct q; [exact H|]. tauto.
    + rewrite draws_of_app. destruct (seq_range_nodup a (length (draws_of js))) as (N & F). rewrite <- D in N, F.
      apply nodup_both; [exact N|exact N'|]. intros x X Y. rewrite Forall_forall in F, F'. specialize (F x X). specialize (F' x Y). cbn in *. lia.
    + rewrite draws_of_app. destruct (seq_range_nodup a (length (draws_of js))) as (N & F). rewrite <- D in F. apply Forall_app. split.
      * eapply Forall_impl; [|exact F]. cbn. intros x Hx. lia.
      * eapply Forall_impl; [|exact F']. cbn. intros x Hx. lia.
    + lia.
Qed.
Print Assumptions C57_builds.

(* nonces on the wire of three builds: the second without encryption *)
Definition ex_nonces (p : packet) : list bytes :=
  match p_body p with
  | BCO c =>
    match co_payload c with
    | Some w =>
      match man_deserialize w with
      | Ok m => match m_node m, m_ctx m with MEnc _, Some c => [a_nonce (ctx_aead c)] | _, _ => [] end
      | Err _ => []
      end
    | None => []
    end
  | _ => []
  end.
Example C57_builds_ex :
  let rnd := fun k => repeat (Z.of_nat k) 12 in
  let j := fun o => mkJob toy o 1 (ex_bytes 1500) (mkFl 0 0) in
  let s := run_jobs toy exact_log rnd [j (ex_secret Prefixed 400); j (ex_deg Hashed None); j (ex_secret Prefixed 400)] (mkMst [] 5) in
  flat_map ex_nonces (ms_out s) = map rnd [7; 8; 11; 12]%nat /\ ms_nonce s = 13%nat.
Proof. vm_compute. split; reflexivity. Qed.
