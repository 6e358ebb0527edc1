(* The whole of ManifestTree.build: what its stages give to each other. *)
From Coq Require Import ZArith List Bool Lia ZifyBool.
From Verif Require Import Py Tlv Float Core TlvProofs CoreProofs Flic FlicProofs Crypto CryptoProofs
  Optimizer OptimizerProofs Tree TreeSpec TreeProofs TreeFacts PropsOptimizer PropsTree ChunkProofs SizeProofs
  PropsChunk.
Import ListNotations.
Open Scope Z_scope.
Opaque tlv_make tlv_wire tlv_deserialize.

(* ---------------- the optimizer on degenerate arguments ---------------- *)

Lemma optimizer_empty clog p : 1 <= p -> minimize_k_min_waste clog 0 p = Err ValueError.
Proof.
  intros Hp. unfold minimize_k_min_waste, minimize_k. rewrite zrange_cons by lia. cbn [foldM].
  unfold min_k_step at 1. rewrite Z.sub_0_r. unfold calc_k. change (0 =? 0) with true. cbv beta iota.
  replace (p <? 0) with false by lia. cbn [bind]. unfold opt_result, num_leaf.
  replace (0 - 1 * p <=? 0) with true by lia. cbn [bind]. reflexivity.
Qed.
Lemma optimizer_degree clog n p r : 1 <= n -> minimize_k_min_waste clog n p = Ok r -> 2 <= p.
Proof.
  intros Hn H. destruct (Z.le_gt_cases 2 p) as [|L]; [assumption|]. exfalso.
  unfold minimize_k_min_waste, minimize_k in H. destruct (Z.le_gt_cases p 0) as [Z0|Z0].
  - rewrite zrange_nil in H by lia. discriminate.
  - assert (p = 1) by lia. subst p. change (zrange 0 1) with [0] in H. cbn [foldM] in H.
    unfold min_k_step in H. change (1 - 0) with 1 in H. unfold calc_k in H. change (0 =? 0) with true in H. cbv beta iota in H.
    destruct (1 <? n) eqn:E; [discriminate|]. assert (n = 1) by lia. subst n. cbn [bind] in H.
    vm_compute in H. discriminate.
Qed.

Lemma int_div_le a q : 0 < a < 2 ^ 53 -> int_div a 36 = Ok q -> q = a / 36.
Proof.
  intros Ha H. unfold int_div, int_truediv in H. destruct (fl_finite _); [|discriminate]. apply Ok_inj in H.
  rewrite round_trunc in H by lia. lia.
Qed.
Lemma max_pointers_bound P rnd now (o : opts P) x total k num k' : op_max o <= 2 ^ 24 ->
  max_pointers P rnd now o x total k = (Ok num, k') -> 2 <= num <= 2 ^ 20.
Proof.
  intros Hm H. apply max_pointers_inv in H as (p1 & k1 & b1 & p2 & b2 & q & _ & _ & L & Eq & -> & Hn & _).
  pose proof (zlen_nonneg b1). split; [exact Hn|].
  change (2 ^ 24) with 16777216 in *. change (2 ^ 20) with 1048576.
  apply int_div_le in Eq; [|change (2 ^ 53) with 9007199254740992; lia].
  subst q. pose proof (Z.div_le_mono (op_max o - zlen b1) 16777216 36 ltac:(lia) ltac:(lia)) as X.
  change (16777216 / 36) with 466033 in X. lia.
Qed.

(* ---------------- draws of the random generator ---------------- *)

(* m draws c nonces, or at most c when it fails *)
Definition draws {A} (c : nat) (m : st nat A) : Prop :=
  forall k, (k <= snd (m k) <= k + c)%nat /\ forall a, fst (m k) = Ok a -> snd (m k) = (k + c)%nat.
Lemma draws_lift {A} (r : res A) : draws 0 (lift r).
Proof. intros k. cbn. split; [lia|]. intros; lia. Qed.
Lemma draws_ret {A} (a : A) : draws 0 (sret a).
Proof. intros k. cbn. split; [lia|]. intros; lia. Qed.
Lemma draws_bind {A B} a b (m : st nat A) (f : A -> st nat B) :
  draws a m -> (forall x, draws b (f x)) -> draws (a + b) (sbind m f).
Proof.
  intros M F k. unfold sbind. destruct (M k) as (L & E). destruct (m k) as [[x|e] k1]; cbn [fst snd] in *.
  - specialize (E x eq_refl). destruct (F x k1) as (L' & E'). split; [lia|]. intros y Y. specialize (E' y Y). lia.
  - split; [lia|]. intros y [=].
Qed.
Lemma draws_one {A} (f : nat -> res A) : draws 1 (k <~ sget ;; _ <~ smod S ;; lift (f k)).
Proof. intros k. cbn. split; [lia|]. intros; lia. Qed.

(* per manifest *)
Definition per_manifest {P} (o : opts P) : nat := match op_enc o with ENone => 0 | _ => 1 end.
Lemma fac_packet_draws P rnd now (o : opts P) src defs a b c d e nm x sign include :
  draws (per_manifest o) (fac_packet P rnd now o src defs a b c d e nm x sign include).
Proof.
  assert (forall n, draws (per_manifest o) (fac_from_node P rnd o include n)) as N.
  { intros n. unfold fac_from_node, per_manifest. destruct (op_enc o) as [|p|i].
    - apply (draws_bind 0 0); [apply draws_lift|intros; apply draws_ret].
    - apply (draws_one (fun k => r <- aead_encrypt P p (rnd k) n ;; manifest_of r)).
    - apply (draws_one (fun k => r <- oaep_encrypt P i include (rnd k) n ;; manifest_of r)). }
  assert (forall gs ds z, draws (per_manifest o) (fac_from_groups P rnd o gs ds z include)) as G.
  { intros gs ds z. unfold fac_from_groups. apply (draws_bind 0); [apply draws_lift|]. intros _. apply N. }
  unfold fac_packet. rewrite <- (Nat.add_0_r (per_manifest o)). apply draws_bind.
  2:{ intros m. apply (draws_bind 0 0); [apply draws_lift|]. intros y. apply (draws_bind 0 0); [apply draws_lift|]. intros z.
      apply (draws_bind 0 0); [apply draws_lift|]. intros _. apply draws_ret. }
  unfold fac_build. rewrite <- (Nat.add_0_r (per_manifest o)). apply draws_bind.
  2:{ intros m. apply (draws_bind 0 0); [apply draws_lift|]. intros y. apply (draws_bind 0 0); [apply draws_lift|]. intros _. apply draws_ret. }
  destruct src as [l|gs|n]; [|apply G|apply N].
  unfold fac_from_ptrs. apply (draws_bind 0); [apply draws_lift|]. intros _. apply G.
Qed.
Lemma root_packet_draws P rnd now (o : opts P) x total t : draws (per_manifest o) (root_packet P rnd now o x total t).
Proof. unfold root_packet. apply (draws_bind 0); [apply draws_lift|]. intros. apply fac_packet_draws. Qed.
Lemma max_pointers_draws P rnd now (o : opts P) x total : draws (per_manifest o + per_manifest o) (max_pointers P rnd now o x total).
Proof.
  assert (forall n, draws (per_manifest o) (ref_packet P rnd now o x total n)) as R.
  { intros n. unfold ref_packet. apply (draws_bind 0); [apply draws_lift|]. intros. apply fac_packet_draws. }
  replace (per_manifest o + per_manifest o)%nat with (0 + (per_manifest o + (0 + (0 + (0 + (per_manifest o + (0 + (0 + (0 + 0)))))))))%nat by lia.
  unfold max_pointers. cbv zeta. repeat (apply draws_bind; [first [apply draws_lift | apply R]|intros ?]). apply draws_ret.
Qed.
Lemma tree_params_draws P clog rnd now (o : opts P) x n total : draws (per_manifest o + per_manifest o) (tree_params P clog rnd now o x n total).
Proof.
  unfold tree_params. rewrite <- (Nat.add_0_r (per_manifest o + per_manifest o)). apply draws_bind; [apply max_pointers_draws|]. intros p.
  apply (draws_bind 0 0); [apply draws_lift|]. intros _. apply draws_lift.
Qed.

(* ---------------- stages ---------------- *)

(* the number of the first chunk *)
Definition first_num (meta : list cmeta) : Z := match meta with [] => 0 | m :: _ => cm_num m end.
Lemma emits_first P (o : opts P) i z l pkts meta : emits P o i z l pkts meta -> emits P o i (first_num meta) l pkts meta.
Proof.
  destruct pkts as [|p pkts], meta as [|m meta], l as [|b l]; cbn [emits]; try tauto. intros (D & H).
  assert (first_num (m :: meta) = z) as ->; [|auto]. destruct D as (nm & w & h & _ & _ & _ & _ & _ & _ & _ & _ & _ & _ & ->). reflexivity.
Qed.

(* l is what the file was cut into *)
Definition pieces (data : bytes) (l : list bytes) : Prop :=
  concat l = data /\ Forall (fun b => b <> []) l.
Lemma cut_pieces ps data l : cut ps data l -> pieces data l.
Proof. intros (C & F & _). split; [exact C|]. eapply Forall_impl; [|exact F]. intros b Hb. apply Hb. Qed.

Section Build.
Context (P : prims).
Variable clog : Z -> Z -> Z -> Z.
Variable rnd : nat -> bytes.
Variable now : fl.
Variable o : opts P.
Variable nc : Z.
Variable data : bytes.
Hypothesis Hlog : log_ok clog.
Hypothesis Hmax : op_max o <= 2 ^ 24.

(* the stages before the tree is built have succeeded; k and k' count nonces *)
Record setup (k k' : nat) (x : nctx) (ps : Z) (l : list bytes) (pkts : list packet) (meta : list cmeta)
    (num : Z) (r : optres) : Prop :=
  { su_ctx : nctx_create P o nc = Ok x;
    su_ps : payload_size P o (nx_data x) = Ok ps;
    su_pos : 1 <= ps;
    su_cut : pieces data l;
    su_emits : emits P o (nx_data x) (first_num meta) l pkts meta;
    su_first : 0 <= first_num meta <= MAX_CHUNK_ID + 1;
    su_len : length pkts = length l;
    su_num : max_pointers P rnd now o x (zlen data) k = (Ok num, k');
    su_opt : minimize_k_min_waste clog (zlen meta)
               (match op_degree o with None => num | Some d => Z.min num d end) = Ok r;
    su_p : 2 <= or_d r + or_m r <= num;
    su_usable : usable (env_of P o x meta r) }.

(* a build that has succeeded *)
Definition whole_build (s : mst) (root : packet) (s' : mst) : Prop :=
  exists k' x ps l pkts meta num r lv t np b k2,
       setup (ms_nonce s) k' x ps l pkts meta num r /\
       result P rnd now (env_of P o x meta r) (ms_out s ++ pkts) k' np b lv t /\
       root_packet P rnd now o x (zlen data) (mi_pkt (top t)) (b_nonce b) = (Ok root, k2) /\
       s' = mkMst (ms_out s ++ pkts ++ map mi_pkt (infos t) ++ [root]) k2.
(* the same, with the number of the first chunk *)
Definition whole_build_at (z : Z) (s : mst) (root : packet) (s' : mst) : Prop :=
  exists k' x ps l pkts meta num r lv t np b k2,
       (setup (ms_nonce s) k' x ps l pkts meta num r /\ emits P o (nx_data x) z l pkts meta) /\
       result P rnd now (env_of P o x meta r) (ms_out s ++ pkts) k' np b lv t /\
       root_packet P rnd now o x (zlen data) (mi_pkt (top t)) (b_nonce b) = (Ok root, k2) /\
       s' = mkMst (ms_out s ++ pkts ++ map mi_pkt (infos t) ++ [root]) k2.
(* and one that has failed *)
Definition stopped (s s' : mst) : Prop :=
  (ms_nonce s <= ms_nonce s')%nat /\ exists pkts ts, ms_out s' = ms_out s ++ pkts ++ map mi_pkt (forest_infos ts) /\
    (pkts <> [] \/ ts <> [] -> exists x ps l meta, nctx_create P o nc = Ok x /\
       payload_size P o (nx_data x) = Ok ps /\ 1 <= ps /\ pieces data l /\ emits P o (nx_data x) (first_num meta) l pkts meta /\
       (ts <> [] -> exists k' num r, setup (ms_nonce s) k' x ps l pkts meta num r /\
          Forall (fun t => exists lv, wf P rnd now (env_of P o x meta r) lv t) ts /\
          drawn P (env_of P o x meta r) k' ts (ms_nonce s'))).
Definition ended (s : mst) (r : res packet) (s' : mst) : Prop :=
  match r with Ok root => whole_build s root s' | Err _ => stopped s s' end.

Lemma emits_count i id l pkts ms : emits P o i id l pkts ms -> 0 <= id <= MAX_CHUNK_ID + 1 ->
  id + zlen ms <= MAX_CHUNK_ID + 1 /\ length ms = length pkts.
Proof.
  revert id l pkts. induction ms as [|m ms IH]; intros id l pkts H Hid; destruct pkts as [|p pkts], l as [|b l]; cbn [emits] in H; try contradiction.
  1,2: rewrite zlen_nil; split; [lia|reflexivity].
  - destruct H as (D & H). destruct D as (nm & w & hh & _ & _ & _ & _ & _ & _ & _ & Hi & _).
    apply IH in H; [|lia]. destruct H as (H & L). rewrite zlen_cons. cbn [length]. split; [lia|congruence].
Qed.

Lemma first_num_ok i z l pkts ms : emits P o i z l pkts ms -> 0 <= z <= MAX_CHUNK_ID + 1 -> 0 <= first_num ms <= MAX_CHUNK_ID + 1.
Proof.
  destruct pkts as [|p pkts], ms as [|m ms], l as [|b l]; cbn [emits]; try tauto; try (intros _ _; unfold first_num, MAX_CHUNK_ID; lia).
  intros (D & _) H. destruct D as (nm & w & h & _ & _ & _ & _ & _ & _ & _ & _ & _ & _ & ->). exact H.
Qed.

Lemma tree_params_run x n total k : ctx_wf x -> forall meta : list cmeta, zlen meta = n -> 0 <= n <= 2 ^ 32 ->
  run (tree_params P clog rnd now o x n total) k
    (fun r k' => exists num, max_pointers P rnd now o x total k = (Ok num, k') /\
       minimize_k_min_waste clog n (match op_degree o with None => num | Some d => Z.min num d end) = Ok r /\
       2 <= or_d r + or_m r <= num /\ usable (env_of P o x meta r))
    (fun _ _ => True).
Proof.
  intros Hx meta Hl Hn. unfold run, tree_params, sbind, lift.
  destruct (max_pointers P rnd now o x total k) as [[num|e] k'] eqn:M; [|exact I].
  pose proof (max_pointers_bound _ _ _ _ _ _ _ _ _ Hmax M) as Hb. replace (2 <=? num) with true by lia. cbn [guard].
  set (p := match op_degree o with None => num | Some d => Z.min num d end).
  destruct (minimize_k_min_waste clog n p) as [r|e] eqn:E; [|exact I].
  exists num. split; [reflexivity|]. split; [exact E|].
  assert (1 <= n) as Hn1.
  { destruct (Z.eq_dec n 0) as [->|]; [|lia]. destruct (Z.le_gt_cases 1 p).
    - rewrite optimizer_empty in E by assumption. discriminate.
    - exfalso. unfold minimize_k_min_waste, minimize_k in E. rewrite zrange_nil in E by lia. discriminate. }
  pose proof (optimizer_degree _ _ _ _ Hn1 E) as Hp.
  assert (p <= num) by (unfold p; destruct (op_degree o); lia).
  rewrite <- Hl in E, Hn, Hn1.
  destruct (C28_optimizer_usable P clog o x meta p Hlog ltac:(lia) ltac:(lia) Hx) as (r' & E' & U & S).
  rewrite E in E'. apply Ok_inj in E'. subst r'. split; [lia|exact U].
Qed.

(* The same for any way of reading the file: [chunks] is what puts the data
   objects, and [good] is what is known about the pieces. *)
Section Source.
Variable chunks : impl -> st (list packet) (list cmeta * Z * Z).
Variable good : Z -> list bytes -> Prop.
Variable z : Z.
Hypothesis Hz : 0 <= z <= MAX_CHUNK_ID + 1.
Hypothesis good_pieces : forall ps l, good ps l -> pieces data l.
Hypothesis chunks_run : forall i out,
  run (chunks i) out
    (fun r out' => exists ps l pkts ms, payload_size P o i = Ok ps /\ 1 <= ps /\ good ps l /\
       out' = out ++ pkts /\ emits P o i z l pkts ms /\ length pkts = length l /\
       r = (ms, zlen data, z + zlen l))
    (fun _ out' => out' = out \/
       exists ps l pkts ms, payload_size P o i = Ok ps /\ 1 <= ps /\ good ps l /\
       out' = out ++ pkts /\ emits P o i z l pkts ms).
Theorem build_run s :
  run (x <~ lift (nctx_create P o nc) ;;
       '(meta, total, _) <~ on_out (chunks (nx_data x)) ;;
       r <~ on_nonce (tree_params P clog rnd now o x (zlen meta) total) ;;
       top <~ build_top P rnd now (env_of P o x meta r) ;;
       build_root P rnd now o x total top) s
    (fun root s' => exists k' x ps l pkts meta num r lv t np b k2,
       (setup (ms_nonce s) k' x ps l pkts meta num r /\ good ps l /\ emits P o (nx_data x) z l pkts meta) /\
       result P rnd now (env_of P o x meta r) (ms_out s ++ pkts) k' np b lv t /\
       root_packet P rnd now o x (zlen data) (mi_pkt (top t)) (b_nonce b) = (Ok root, k2) /\
       s' = mkMst (ms_out s ++ pkts ++ map mi_pkt (infos t) ++ [root]) k2)
    (fun e s' => (ms_nonce s <= ms_nonce s')%nat /\ exists pkts ts, ms_out s' = ms_out s ++ pkts ++ map mi_pkt (forest_infos ts) /\
       (pkts <> [] \/ ts <> [] -> exists x ps l meta, nctx_create P o nc = Ok x /\
          payload_size P o (nx_data x) = Ok ps /\ 1 <= ps /\ good ps l /\ emits P o (nx_data x) z l pkts meta /\
          (ts <> [] -> exists k' num r, setup (ms_nonce s) k' x ps l pkts meta num r /\
             Forall (fun t => exists lv, wf P rnd now (env_of P o x meta r) lv t) ts /\
             drawn P (env_of P o x meta r) k' ts (ms_nonce s')))).
Proof.
  assert (Q0 : forall s' : mst, ms_out s' = ms_out s -> (ms_nonce s <= ms_nonce s')%nat -> (ms_nonce s <= ms_nonce s')%nat /\ exists (pkts : list packet) ts, ms_out s' = ms_out s ++ pkts ++ map mi_pkt (forest_infos ts) /\
       (pkts <> [] \/ ts <> [] -> exists x ps l meta, nctx_create P o nc = Ok x /\
          payload_size P o (nx_data x) = Ok ps /\ 1 <= ps /\ good ps l /\ emits P o (nx_data x) z l pkts meta /\
          (ts <> [] -> exists k' num r, setup (ms_nonce s) k' x ps l pkts meta num r /\
             Forall (fun t => exists lv, wf P rnd now (env_of P o x meta r) lv t) ts /\
             drawn P (env_of P o x meta r) k' ts (ms_nonce s')))).
  { intros s' -> Ln. split; [exact Ln|]. exists [], []. cbn. rewrite app_nil_r. split; [reflexivity|]. intros [H|H]; contradiction. }
  apply run_bind, run_lift; [|intros; apply Q0; auto]. intros x Ex.
  pose proof (nctx_create_wf _ _ _ _ Ex) as Hx.
  apply run_bind. unfold run at 1. unfold on_out at 1.
  pose proof (chunks_run (nx_data x) (ms_out s)) as R. unfold run in R.
  destruct (chunks (nx_data x) (ms_out s)) as [[[[meta total] nx]|e] out'].
  2:{ destruct R as [->|(ps & l & pkts & ms & Eps & Hp & Hc & -> & He)]; [apply Q0; [reflexivity|cbn; lia]|].
      split; [cbn; lia|]. exists pkts, []. cbn [ms_out]. split; [cbn; now rewrite app_nil_r|]. intros _. exists x, ps, l, ms.
      repeat (split; [assumption|]). intros H. now elim H. }
  destruct R as (ps & l & pkts & ms & Eps & Hp & Hc & -> & He & L & E). injection E as -> -> ->.
  pose proof (emits_count _ _ _ _ _ He Hz) as (Hcnt & Hlm).
  assert (Q1 : forall s' : mst, ms_out s' = ms_out s ++ pkts -> (ms_nonce s <= ms_nonce s')%nat -> (ms_nonce s <= ms_nonce s')%nat /\ exists (pkts : list packet) ts, ms_out s' = ms_out s ++ pkts ++ map mi_pkt (forest_infos ts) /\
       (pkts <> [] \/ ts <> [] -> exists x ps l meta, nctx_create P o nc = Ok x /\
          payload_size P o (nx_data x) = Ok ps /\ 1 <= ps /\ good ps l /\ emits P o (nx_data x) z l pkts meta /\
          (ts <> [] -> exists k' num r, setup (ms_nonce s) k' x ps l pkts meta num r /\
             Forall (fun t => exists lv, wf P rnd now (env_of P o x meta r) lv t) ts /\
             drawn P (env_of P o x meta r) k' ts (ms_nonce s')))).
  { intros s' -> Ln. split; [exact Ln|]. exists pkts, []. cbn. rewrite app_nil_r. split; [reflexivity|]. intros _. exists x, ps, l, ms.
      repeat (split; [assumption|]). intros H. now elim H. }
  apply run_bind. unfold run at 1. unfold on_nonce at 1. cbn [ms_nonce ms_out].
  pose proof (tree_params_run x (zlen ms) (zlen data) (ms_nonce s) Hx ms eq_refl
     ltac:(pose proof (zlen_nonneg ms); unfold MAX_CHUNK_ID in *; change (2 ^ 32) with 4294967296; lia)) as R.
  pose proof (tree_params_draws P clog rnd now o x (zlen ms) (zlen data) (ms_nonce s)) as (Ld & _).
  unfold run in R. destruct (tree_params P clog rnd now o x (zlen ms) (zlen data) (ms_nonce s)) as [[r|e] k'].
  all: cbn [snd] in Ld.
  2:{ apply Q1; [reflexivity|cbn; lia]. }
  destruct R as (num & Enum & Eopt & Hpp & U).
  assert (SU : setup (ms_nonce s) k' x ps l pkts ms num r) by (split; try assumption; [eapply good_pieces; eassumption|eapply emits_first; eassumption|eapply first_num_ok; eassumption]).
  set (v := env_of P o x ms r) in *.
  apply run_bind. unfold run at 1. unfold build_top at 1. cbn [ms_nonce ms_out].
  destruct (tb_init P v (ms_out s ++ pkts) k') as [b0|e] eqn:EI; [|apply Q1; [reflexivity|cbn; lia]].
  pose proof (build_result P rnd now v (ms_out s ++ pkts) k' b0 U EI) as R. unfold run in R.
  destruct (tb_build P rnd now v b0) as [[np|e] b]; cbn [bind].
  2:{ destruct R as (_ & ts & W & Eo & Dr). split; [destruct Dr as (_ & Dr); cbn [ms_nonce]; lia|]. exists pkts, ts. cbn [ms_out]. rewrite Eo, <- app_assoc. split; [reflexivity|].
      intros _. exists x, ps, l, ms. repeat (split; [assumption|]). intros _. exists k', num, r. split; [assumption|]. now split. }
  destruct R as (lv & t & R). pose proof (rs_shows _ _ _ _ _ _ _ _ _ _ R) as (Enp & Eo & _). rewrite Enp. cbn [snd].
  unfold build_root. apply run_bind. unfold run at 1. unfold on_nonce. cbn [ms_nonce ms_out].
  destruct (root_packet P rnd now o x (zlen data) (mi_pkt (top t)) (b_nonce b)) as [[root|e] k2] eqn:ER.
  2:{ split.
      { pose proof (root_packet_draws P rnd now o x (zlen data) (mi_pkt (top t)) (b_nonce b)) as (Lr & _). rewrite ER in Lr. cbn [snd ms_nonce] in *.
        pose proof (rs_nonce _ _ _ _ _ _ _ _ _ _ R). lia. }
      exists pkts, [t]. cbn [ms_out]. rewrite Eo, forest_infos_one, <- app_assoc. split; [reflexivity|].
      intros _. exists x, ps, l, ms. repeat (split; [assumption|]). intros _. exists k', num, r. split; [assumption|].
      split; [constructor; [|constructor]; exists lv; apply R|]. unfold drawn. rewrite forest_infos_one. split; [apply (rs_nonces _ _ _ _ _ _ _ _ _ _ R)|].
      pose proof (root_packet_draws P rnd now o x (zlen data) (mi_pkt (top t)) (b_nonce b)) as (Lr & _). rewrite ER in Lr. cbn [snd ms_nonce] in *.
      eapply Nat.le_trans; [|exact (proj1 Lr)]. rewrite (rs_nonce _ _ _ _ _ _ _ _ _ _ R). apply Nat.le_refl. }
  unfold sbind, on_out, smod, sret, run. cbn [ms_out ms_nonce].
  exists k', x, ps, l, pkts, ms, num, r, lv, t, np, b, k2. split; [split; [exact SU|split; [exact Hc|exact He]]|]. split; [exact R|]. split; [exact ER|].
  rewrite Eo, <- !app_assoc. reflexivity.
Qed.
Lemma build_at s root s' : (x <~ lift (nctx_create P o nc) ;;
       '(meta, total, _) <~ on_out (chunks (nx_data x)) ;;
       r <~ on_nonce (tree_params P clog rnd now o x (zlen meta) total) ;;
       top <~ build_top P rnd now (env_of P o x meta r) ;;
       build_root P rnd now o x total top) s = (Ok root, s') -> whole_build_at z s root s'.
Proof.
  intros H. pose proof (build_run s) as R. unfold run in R. rewrite H in R.
  destruct R as (k' & x & ps & l & pkts & meta & num & r & lv & t & np & b & k2 & (SU & _ & He) & R).
  now exists k', x, ps, l, pkts, meta, num, r, lv, t, np, b, k2.
Qed.
Lemma build_ended s r s' : (x <~ lift (nctx_create P o nc) ;;
       '(meta, total, _) <~ on_out (chunks (nx_data x)) ;;
       r <~ on_nonce (tree_params P clog rnd now o x (zlen meta) total) ;;
       top <~ build_top P rnd now (env_of P o x meta r) ;;
       build_root P rnd now o x total top) s = (r, s') -> ended s r s'.
Proof.
  intros H. pose proof (build_run s) as R. unfold run in R. rewrite H in R. destruct r as [root|e].
  - destruct R as (k' & x & ps & l & pkts & meta & num & r & lv & t & np & b & k2 & (SU & _) & R).
    now exists k', x, ps, l, pkts, meta, num, r, lv, t, np, b, k2.
  - destruct R as (L & pkts & ts & E & R). split; [exact L|]. exists pkts, ts. split; [exact E|].
    intros N. destruct (R N) as (x & ps & l & meta & A1 & A2 & A3 & A4 & A5 & A6). exists x, ps, l, meta.
    repeat (split; [first [assumption | eapply good_pieces; eassumption | eapply emits_first; eassumption]|]). exact A6.
Qed.
End Source.

Lemma chunk_data_puts i out :
  run (chunk_data P o i 0 data) out
    (fun r out' => exists ps l pkts ms, payload_size P o i = Ok ps /\ 1 <= ps /\ cut ps data l /\
       out' = out ++ pkts /\ emits P o i 0 l pkts ms /\ length pkts = length l /\
       r = (ms, zlen data, 0 + zlen l))
    (fun _ out' => out' = out \/
       exists ps l pkts ms, payload_size P o i = Ok ps /\ 1 <= ps /\ cut ps data l /\
       out' = out ++ pkts /\ emits P o i 0 l pkts ms).
Proof.
  eapply run_weaken; [apply chunk_data_run|auto|]. intros e out' [(_ & H)|(ps & l & pkts & ms & A & B & C & D & E & _)]; [auto|].
  right. now exists ps, l, pkts, ms.
Qed.
Theorem manifest_tree_ended s r s' : manifest_tree P clog rnd now o nc data s = (r, s') -> ended s r s'.
Proof.
  apply (build_ended (fun i => chunk_data P o i 0 data) (fun ps l => cut ps data l) 0).
  - unfold MAX_CHUNK_ID; lia.
  - intros ps l. apply cut_pieces.
  - apply chunk_data_puts.
Qed.
Lemma manifest_tree_ok s root s' : manifest_tree P clog rnd now o nc data s = (Ok root, s') -> whole_build s root s'.
Proof. apply (manifest_tree_ended s (Ok root) s'). Qed.
Lemma manifest_tree_at s root s' : manifest_tree P clog rnd now o nc data s = (Ok root, s') -> whole_build_at 0 s root s'.
Proof.
  apply (build_at (fun i => chunk_data P o i 0 data) (fun ps l => cut ps data l) 0).
  - unfold MAX_CHUNK_ID; lia.
  - intros ps l. apply cut_pieces.
  - apply chunk_data_puts.
Qed.
(* the same with the size of the pieces *)
Lemma manifest_tree_cut s root s' : manifest_tree P clog rnd now o nc data s = (Ok root, s') ->
  exists k' x ps l pkts meta num r lv t np b k2,
       (setup (ms_nonce s) k' x ps l pkts meta num r /\ cut ps data l /\ emits P o (nx_data x) 0 l pkts meta) /\
       result P rnd now (env_of P o x meta r) (ms_out s ++ pkts) k' np b lv t /\
       root_packet P rnd now o x (zlen data) (mi_pkt (top t)) (b_nonce b) = (Ok root, k2) /\
       s' = mkMst (ms_out s ++ pkts ++ map mi_pkt (infos t) ++ [root]) k2.
Proof.
  intros H. pose proof (build_run (fun i => chunk_data P o i 0 data) (fun ps l => cut ps data l) 0
    ltac:(unfold MAX_CHUNK_ID; lia) (fun ps l => cut_pieces ps data l) (chunk_data_puts) s) as R.
  unfold manifest_tree in H. unfold run in R. now rewrite H in R.
Qed.
End Build.
