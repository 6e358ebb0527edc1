(* C80: trees from streams with short or failing reads, from metadata of an
   earlier run, and with a name context that is used again. *)
From Coq Require Import ZArith List Bool Lia ZifyBool Permutation Sorted.
From Verif Require Import Py Tlv Float Core TlvProofs CoreProofs Flic FlicProofs Spec WireSpec PropsTlv PropsFlic Crypto CryptoProofs PropsCrypto
  Optimizer OptimizerProofs Tree TreeSpec TreeProofs TreeFacts PropsOptimizer PropsTree ChunkProofs PropsChunk SizeProofs
  BuildProofs Store StoreProofs Traversal TraversalProofs EndSpec EndProofs ReadProofs PropsEnd PropsIntegrity PropsAuth PropsNames Stream.
Import ListNotations.
Open Scope Z_scope.
Opaque tlv_make tlv_wire tlv_deserialize.

(* ---------------- specification ---------------- *)

(* the pieces a stream gives: what is read before a read gives nothing or
   raises, and what was raised *)
Fixpoint served (rs : list (res bytes)) : list bytes :=
  match rs with Ok (x :: b) :: rs => (x :: b) :: served rs | _ => [] end.
Fixpoint broken (rs : list (res bytes)) : option exn :=
  match rs with Ok (_ :: _) :: rs => broken rs | Err e :: _ => Some e | _ => None end.

(* The first packets for the pieces l, numbered from id; only the last piece has
   the final chunk id, and only if the numbers are chunk name segments. *)
Definition wrote {P} (o : opts P) (i : impl) (id : Z) (l : list bytes) (pkts : list packet) (meta : list cmeta) : Prop :=
  length meta = length pkts /\ (length pkts <= length l)%nat /\
  forall k b p m, at3 k l pkts meta b p m -> exists nm,
    impl_name i (Some (id + Z.of_nat k)) = Ok nm /\
    is_data o nm b (match im_schema i with
                    | SSeg _ (Some ty) _ _ => if (ty =? T_CHUNKID) && Nat.eqb (S k) (length l) then Some (id + Z.of_nat k) else None
                    | _ => None
                    end) p (cm_hash m) /\
    pkt_len p <= op_max o /\ cm_num m = id + Z.of_nat k /\ cm_bytes m = zlen b.

(* ---------------- the loop ---------------- *)

Section Loop.
Context (P : prims) (o : opts P) (i : impl).
Lemma put_chunk_run nm id cur next s : impl_name i (Some id) = Ok nm -> id <= MAX_CHUNK_ID ->
  run (put_chunk P o i nm id cur next) s
    (fun m s' => exists p, s' = mkSst (ss_out s ++ [p]) (ss_next s) /\ data_object P o i id (zlen next =? 0) cur p m)
    (fun e s' => s' = s /\ chunk_fail P o i id (zlen next =? 0) cur e).
Proof.
  intros En Hid. unfold put_chunk.
  apply run_bind, run_lift.
  2:{ intros e E. split; [reflexivity|]. right. split; [lia|]. right. left. exact E. }
  intros uf Eu.
  assert ((if uf && (zlen next =? 0) then Some id else None) = final_id i id (zlen next =? 0)) as ->.
  { unfold final_id, uses_final_chunk_id in *. destruct (im_schema i) as [| |nm' [ty|] ls' f']; try (apply Ok_inj in Eu; subst uf; reflexivity).
    discriminate. }
  apply run_bind, run_lift.
  2:{ intros e E. split; [reflexivity|]. right. split; [lia|]. right. right. left. eauto. }
  intros p Ep. apply run_bind, run_lift.
  2:{ intros e E. split; [reflexivity|]. right. split; [lia|]. right. right. right. eauto 6. }
  intros h Eh. apply run_bind, run_mod, run_ret. exists p. split; [reflexivity|].
  apply data_packet_ok in Ep as (w & A1 & A2 & (A3 & A3') & A4 & A5 & A6 & A7). exists nm, w, h. repeat split; auto; lia.
Qed.
Lemma stream_loop_nil rest total acc : stream_loop P o i [] rest total acc = sret (acc, total).
Proof. destruct rest; reflexivity. Qed.
Lemma stream_loop_run rest : forall x0 cur total acc s, let l := (x0 :: cur) :: served rest in
  run (stream_loop P o i (x0 :: cur) rest total acc) s
    (fun r s' => exists pkts ms, s' = mkSst (ss_out s ++ pkts) (ss_next s + zlen l) /\ emits P o i (ss_next s) l pkts ms /\
       length pkts = length l /\ broken rest = None /\ r = (acc ++ ms, total + zlen (concat l)))
    (fun e s' => exists pkts ms, s' = mkSst (ss_out s ++ pkts) (ss_next s + zlen pkts + 1) /\ emits P o i (ss_next s) l pkts ms /\
       (length pkts < length l)%nat /\
       (fails P o i (ss_next s) l (length pkts) e \/ broken rest = Some e /\ S (length pkts) = length l)).
Proof.
  induction rest as [|q rest IH]; intros x0 cur total acc s l; set (b := x0 :: cur) in *; set (id := ss_next s) in *.
  - cbn [stream_loop b]. cbv zeta. fold b.
    apply run_bind. unfold run at 1, take_id. fold id.
    apply run_bind, run_lift.
    2:{ intros e E. exists [], []. rewrite app_nil_r, zlen_nil, Z.add_0_r. repeat split; [cbn; lia|]. left. cbn. left.
        unfold guard in E. destruct (id <=? MAX_CHUNK_ID) eqn:Eid; [discriminate|]. split; [lia|congruence]. }
    intros u Eg. apply guard_ok in Eg.
    apply run_bind, run_lift.
    2:{ intros e E. exists [], []. rewrite app_nil_r, zlen_nil, Z.add_0_r. repeat split; [cbn; lia|]. left. cbn. right. split; [lia|]. left. exact E. }
    intros nm En. apply run_bind. eapply run_weaken; [apply (put_chunk_run nm id b [] _ En); lia| |].
    + intros m s' (p & -> & D). apply run_ret. exists [p], [m]. cbn [ss_out ss_next]. split; [reflexivity|].
      split; [cbn [emits l served]; auto|]. repeat split. cbn [l served concat]. rewrite app_nil_r. reflexivity.
    + intros e s' (-> & F). exists [], []. rewrite app_nil_r, zlen_nil, Z.add_0_r. repeat split; [cbn; lia|]. left. exact F.
  - cbn [stream_loop b]. cbv zeta. fold b.
    apply run_bind. unfold run at 1, take_id. fold id.
    apply run_bind, run_lift.
    2:{ intros e E. exists [], []. rewrite app_nil_r, zlen_nil, Z.add_0_r. repeat split; [cbn; lia|]. left. cbn. left.
        unfold guard in E. destruct (id <=? MAX_CHUNK_ID) eqn:Eid; [discriminate|]. split; [lia|congruence]. }
    intros u Eg. apply guard_ok in Eg.
    apply run_bind, run_lift.
    2:{ intros e E. exists [], []. rewrite app_nil_r, zlen_nil, Z.add_0_r. repeat split; [cbn; lia|]. left. cbn. right. split; [lia|]. left. exact E. }
    intros nm En. destruct q as [next|e0].
    2:{ apply run_lift; [intros ? H; discriminate H|]. intros e H; injection H as <-. exists [], []. rewrite app_nil_r, zlen_nil, Z.add_0_r.
        repeat split; [cbn; lia|]. right. split; reflexivity. }
    assert ((zlen next =? 0) = match served (Ok next :: rest) with [] => true | _ => false end) as Hlast.
    { destruct next as [|y next]; [reflexivity|]. rewrite zlen_cons. pose proof (zlen_nonneg next). cbn [served]. lia. }
    apply run_bind. eapply run_weaken; [apply (put_chunk_run nm id b next _ En); lia| |].
    2:{ intros e s' (-> & F). exists [], []. rewrite app_nil_r, zlen_nil, Z.add_0_r. repeat split; [cbn; lia|].
        left. cbn [l fails length]. rewrite <- Hlast. exact F. }
    intros m s' (p & -> & D). rewrite Hlast in D. destruct next as [|y next].
    + rewrite stream_loop_nil. apply run_ret. exists [p], [m]. cbn [ss_out ss_next]. split; [reflexivity|].
      split; [cbn [emits l served]; auto|]. repeat split. cbn [l served concat]. rewrite app_nil_r. reflexivity.
    + cbn [served broken] in *. eapply run_weaken; [apply (IH y next)| |]; cbn [ss_out ss_next].
      * intros r s' (pkts & ms & -> & He & Ln & Hb & ->). exists (p :: pkts), (m :: ms).
        rewrite <- app_assoc. cbn [app]. split; [f_equal; unfold l; rewrite (zlen_cons b); lia|].
        split; [cbn [emits l]; auto|]. split; [cbn [length l] in *; lia|]. split; [exact Hb|].
        rewrite <- app_assoc. cbn [app]. f_equal. unfold l. cbn [concat]. rewrite (zlen_app b). lia.
      * intros e s' (pkts & ms & -> & He & Ln & Hf). exists (p :: pkts), (m :: ms).
        rewrite <- app_assoc. cbn [app]. split; [f_equal; rewrite (zlen_cons p); lia|].
        split; [cbn [emits l]; auto|]. split; [cbn [length l] in *; lia|].
        destruct Hf as [Hf|(Hb & Hf)]; [left; exact Hf|right; split; [exact Hb|cbn [length l] in *; lia]].
Qed.
Lemma stream_data_run rd s :
  run (stream_data P o i rd) s
    (fun r s' => exists ps pkts ms, let l := served (rd ps) in payload_size P o i = Ok ps /\ 1 <= ps /\
       s' = mkSst (ss_out s ++ pkts) (ss_next s + zlen l) /\ emits P o i (ss_next s) l pkts ms /\
       length pkts = length l /\ broken (rd ps) = None /\ r = (ms, zlen (concat l)))
    (fun e s' => (payload_size P o i = Err e /\ s' = s) \/
       exists ps, let l := served (rd ps) in payload_size P o i = Ok ps /\ 1 <= ps /\
       ((l = [] /\ broken (rd ps) = Some e /\ s' = s) \/
        exists pkts ms, s' = mkSst (ss_out s ++ pkts) (ss_next s + zlen pkts + 1) /\ emits P o i (ss_next s) l pkts ms /\
        (length pkts < length l)%nat /\
        (fails P o i (ss_next s) l (length pkts) e \/ broken (rd ps) = Some e /\ S (length pkts) = length l))).
Proof.
  unfold stream_data. apply run_bind, run_lift; [|auto]. intros ps Eps.
  pose proof (payload_size_ok P o i ps Eps) as (_ & _ & _ & _ & Hp & _).
  destruct (rd ps) as [|[[|x cur]|e0] rest] eqn:Er.
  - apply run_ret. exists ps, [], []. rewrite Er. cbv zeta. cbn [served broken concat length emits]. rewrite app_nil_r, !zlen_nil, Z.add_0_r. destruct s. auto 10.
  - rewrite stream_loop_nil. apply run_ret. exists ps, [], []. rewrite Er. cbv zeta. cbn [served broken concat length emits]. rewrite app_nil_r, !zlen_nil, Z.add_0_r. destruct s. auto 10.
  - eapply run_weaken; [apply stream_loop_run| |].
    + intros r s' (pkts & ms & -> & He & Ln & Hb & ->). exists ps, pkts, ms. rewrite Er. cbn [served broken app]. rewrite Z.add_0_l. auto 10.
    + intros e s' (pkts & ms & -> & He & Ln & Hf). right. exists ps. rewrite Er. cbn [served broken]. split; [exact Eps|]. split; [exact Hp|].
      right. exists pkts, ms. auto.
  - apply run_lift; [intros ? H; discriminate H|]. intros e H; injection H as <-. right. exists ps. rewrite Er. cbn. auto 10.
Qed.
Lemma emits_wrote id l pkts ms : emits P o i id l pkts ms -> wrote o i id l pkts ms.
Proof.
  intros He. pose proof (emits_nth _ _ _ _ _ _ _ He) as (L1 & L2 & Hn). split; [lia|]. split; [exact L2|].
  intros k b p m H3. destruct (Hn _ _ _ _ H3) as (nm & w & h & A1 & A2 & A3 & (A4 & _) & A5 & A6 & A7 & A9 & _ & A8 & ->).
  exists nm. cbn [cm_hash cm_num cm_bytes]. split; [exact A1|]. split; [|split; [|split; reflexivity]].
  - unfold is_data. split; [|eauto]. rewrite A2. reflexivity.
  - unfold pkt_len. rewrite A5. exact A7.
Qed.
End Loop.

(* ---------------- chunking ---------------- *)

(* One packet for each read, in order, with the numbers that follow the last
   one used; the counter ends behind the last of them. *)
Theorem C80_chunks : forall P (o : opts P) i rd s meta total s',
  stream_data P o i rd s = (Ok (meta, total), s') ->
  exists ps pkts, payload_size P o i = Ok ps /\ 1 <= ps /\ broken (rd ps) = None /\
    ss_out s' = ss_out s ++ pkts /\ length pkts = length (served (rd ps)) /\ wrote o i (ss_next s) (served (rd ps)) pkts meta /\
    total = zlen (concat (served (rd ps))) /\ ss_next s' = ss_next s + zlen pkts.
Proof.
  intros P o i rd s meta total s' H. pose proof (stream_data_run P o i rd s) as R. unfold run in R. rewrite H in R. cbv zeta in R.
  destruct R as (ps & pkts & ms & Eps & Hp & -> & He & Ln & Hb & E). injection E as -> ->. exists ps, pkts. cbn [ss_out ss_next].
  repeat (split; [first [assumption | reflexivity | apply emits_wrote; assumption]|]). unfold zlen. now rewrite Ln.
Qed.
(* When it raises, the packets of the first k pieces have been put and the
   numbers of k + 1 are used up: either piece k has no packet, or it is the last
   one read and the read after it raised. *)
Theorem C80_stops : forall P (o : opts P) i rd s e s',
  stream_data P o i rd s = (Err e, s') ->
  (s' = s /\ (payload_size P o i = Err e \/ exists ps rest, payload_size P o i = Ok ps /\ rd ps = Err e :: rest)) \/
  exists ps pkts meta, payload_size P o i = Ok ps /\
    ss_out s' = ss_out s ++ pkts /\ (length pkts < length (served (rd ps)))%nat /\ wrote o i (ss_next s) (served (rd ps)) pkts meta /\
    ss_next s' = ss_next s + zlen pkts + 1 /\
    (fails P o i (ss_next s) (served (rd ps)) (length pkts) e \/
     broken (rd ps) = Some e /\ S (length pkts) = length (served (rd ps))).
Proof.
  intros P o i rd s e s' H. pose proof (stream_data_run P o i rd s) as R. unfold run in R. rewrite H in R. cbv zeta in R.
  destruct R as [(E & ->)|(ps & Eps & Hp & [(Hl & Hb & ->)|(pkts & ms & -> & He & Ln & Hf)])].
  - left. auto.
  - left. split; [reflexivity|]. right. exists ps. destruct (rd ps) as [|[[|x cur]|e0] rest]; try discriminate. injection Hb as ->. exists rest. auto.
  - right. exists ps, pkts, ms. cbn [ss_out ss_next]. auto 10 using emits_wrote.
Qed.

(* ---------------- a file is a stream with full reads ---------------- *)

(* what the reads give together, however they are cut *)
Definition content (rd : reader) (data : bytes) : Prop := forall n, 1 <= n -> concat (served (rd n)) = data.
(* read(n) gives n bytes as long as there are that many, and never raises *)
Definition full_reads (rd : reader) (data : bytes) : Prop :=
  forall n, 1 <= n -> cut n data (served (rd n)) /\ broken (rd n) = None.

Lemma splits_hd ps d b l : splits ps d (b :: l) -> 1 <= ps -> ztake ps d = b /\ splits ps (zskip ps d) l /\ d <> [].
Proof. intros H _. inversion H; subst. auto. Qed.
Lemma loop_same P (o : opts P) i ps l : 1 <= ps -> forall d rest fuel id total acc out, splits ps d l -> (length l <= fuel)%nat ->
  (served rest = tl l /\ broken rest = None) ->
  chunk_loop P fuel o i ps (ztake ps d) (zskip ps d) id total acc out =
  (let '(r, s) := stream_loop P o i (ztake ps d) rest total acc (mkSst out id) in
   ('(m, t) <- r ;; Ok (m, t, ss_next s), ss_out s)).
Proof.
  intros Hp. induction l as [|b l IH]; intros d rest fuel id total acc out Hs Lf (Hsv & Hbr).
  - inversion Hs; subst. unfold ztake. rewrite firstn_nil, stream_loop_nil. destruct fuel; reflexivity.
  - apply splits_hd in Hs as (Eb & Hs & Hd); [|exact Hp].
    destruct b as [|x b]; [apply ztake_nil_iff in Eb; [contradiction|lia]|]. rewrite Eb.
    destruct fuel as [|f]; [cbn in Lf; lia|]. cbn [length tl] in *.
    assert (NX : exists nx rest', (rest = [] /\ nx = [] /\ rest' = [] \/ rest = Ok nx :: rest') /\ nx = ztake ps (zskip ps d) /\ (served rest' = tl l /\ broken rest' = None \/ nx = [])).
    { destruct rest as [|[[|y nx]|e] rest'].
      - exists [], []. cbn in Hsv. subst l. inversion Hs as [E|]. split; [left; auto|]. split; [unfold ztake; now rewrite firstn_nil|]. auto.
      - exists [], rest'. cbn in Hsv. subst l. inversion Hs as [E|]. split; [auto|]. split; [unfold ztake; now rewrite firstn_nil|]. auto.
      - exists (y :: nx), rest'. cbn [served] in Hsv. subst l. pose proof Hs as Hs'. apply splits_hd in Hs' as (E & _ & _); [|exact Hp].
        split; [auto|]. split; [auto|]. left. cbn [tl broken] in *. auto.
      - discriminate. }
    destruct NX as (nx & rest' & Er & En & Hr).
    assert (STEP : forall s q, stream_loop P o i (x :: b) rest total acc s = q ->
      (id <~ take_id ;; _ <~ lift (guard (id <=? MAX_CHUNK_ID) ValueError) ;; n <~ lift (impl_name i (Some id)) ;;
       m <~ put_chunk P o i n id (x :: b) nx ;; stream_loop P o i nx rest' (total + zlen (x :: b)) (acc ++ [m])) s = q).
    { intros s q <-. destruct Er as [(-> & -> & ->)| ->]; reflexivity. }
    destruct (stream_loop P o i (x :: b) rest total acc (mkSst out id)) as [r s] eqn:E. apply STEP in E. clear STEP Er.
    cbn [chunk_loop]. rewrite <- En. unfold sbind at 1, lift at 1. unfold sbind at 1, take_id at 1 in E. cbn [ss_next ss_out] in E. unfold sbind at 1, lift at 1 in E.
    destruct (guard (id <=? MAX_CHUNK_ID) ValueError) as [u|e]; [|injection E as <- <-; reflexivity].
    unfold sbind at 1, lift at 1. unfold sbind at 1, lift at 1 in E. destruct (impl_name i (Some id)) as [n|e]; [|injection E as <- <-; reflexivity].
    unfold sbind at 1, lift at 1. unfold sbind at 1 in E. unfold put_chunk in E. unfold sbind at 1, lift at 1 in E.
    destruct (uses_final_chunk_id i) as [uf|e]; [|injection E as <- <-; reflexivity].
    unfold sbind at 1, lift at 1. unfold sbind at 1, lift at 1 in E.
    destruct (data_packet P o n (x :: b) (if uf && (zlen nx =? 0) then Some id else None)) as [p|e]; [|injection E as <- <-; reflexivity].
    unfold sbind at 1, lift at 1. unfold sbind at 1, lift at 1 in E.
    destruct (packet_hash (pr_sha P) p) as [h|e]; [|injection E as <- <-; reflexivity].
    unfold sbind, smod. unfold sbind, smod, sret in E. cbn [ss_out ss_next] in E.
    destruct Hr as [Hr|Hr].
    + rewrite En. rewrite (IH (zskip ps d) rest' f (id + 1) (total + zlen (x :: b)) (acc ++ [mkCM id (zlen (x :: b)) h]) (out ++ [p]) Hs ltac:(lia) Hr).
      rewrite <- En, E. reflexivity.
    + subst nx. rewrite Hr in *. rewrite stream_loop_nil in E. injection E as <- <-. destruct f; reflexivity.
Qed.
(* chunk_data on a byte string is the stream with full reads. *)
Theorem C80_file : forall P (o : opts P) i id data rd out, full_reads rd data ->
  chunk_data P o i id data out =
  (let '(r, s) := stream_data P o i rd (mkSst out id) in ('(m, t) <- r ;; Ok (m, t, ss_next s), ss_out s)).
Proof.
  intros P o i id data rd out F. unfold chunk_data, stream_data. unfold sbind. unfold lift at 1 2.
  destruct (payload_size P o i) as [ps|e] eqn:Eps; [|reflexivity].
  pose proof (payload_size_ok P o i ps Eps) as (_ & _ & _ & _ & Hp & _). destruct (F ps Hp) as (C & B).
  destruct (splits_exists ps Hp (length data) data) as (l & Hs & Ll); [auto|].
  pose proof (splits_cut _ _ _ Hp Hs) as Hc. destruct (C24_cut_unique ps data _ _ Hp C Hc) as (El & _).
  assert (L : exists b rest, match rd ps with [] => sret ([], 0) | Ok cur :: rest => stream_loop P o i cur rest 0 [] | Err e :: _ => lift (Err e) end
                = stream_loop P o i b rest 0 [] /\ b = ztake ps data /\ (served rest = tl l /\ broken rest = None \/ b = [])).
  { destruct (rd ps) as [|[[|x b]|e] rest]; cbn [served broken] in *; subst l.
    - inversion Hs as [E|]. exists [], []. split; [reflexivity|]. split; [unfold ztake; now rewrite firstn_nil|]. auto.
    - inversion Hs as [E|]. exists [], rest. split; [reflexivity|]. split; [unfold ztake; now rewrite firstn_nil|]. auto.
    - exists (x :: b), rest. pose proof Hs as Hs'. apply splits_hd in Hs' as (E & _); [|exact Hp]. split; [reflexivity|]. split; [auto|]. left. auto.
    - discriminate. }
  destruct L as (b & rest & -> & -> & [Hr|Hr]).
  - rewrite (loop_same P o i ps l Hp data rest (S (length data)) id 0 [] out Hs ltac:(lia) Hr). reflexivity.
  - rewrite Hr, stream_loop_nil. reflexivity.
Qed.
(* So is the whole of ManifestTree without a name context. *)
Theorem C80_file_build : forall P clog rnd now (o : opts P) nc data rd m, full_reads rd data ->
  manifest_tree P clog rnd now o nc data m =
  (let '(r, s) := tree_from P clog rnd now o nc (FromReader rd) (mkWst m None) in (r, w_mst s)).
Proof.
  intros P clog rnd now o nc data rd m F. unfold manifest_tree, tree_from, context. cbn [w_ctx w_mst]. unfold sbind at 1, lift at 1.
  destruct (nctx_create P o nc) as [x|e]; [|reflexivity]. cbn [bind lc_ctx lc_next].
  unfold sbind at 1, on_out at 1. rewrite (C80_file P o (nx_data x) 0 data rd (ms_out m) F).
  destruct (stream_data P o (nx_data x) rd (mkSst (ms_out m) 0)) as [[[meta total]|e] ss]; [|reflexivity]. cbn [bind].
  transitivity (finish P clog rnd now o x meta total (mkMst (ss_out ss) (ms_nonce m))); [reflexivity|]. destruct (finish _ _ _ _ _ _ _ _ _). reflexivity.
Qed.
(* Chunking first and building from the metadata is the same as building from
   the stream; a build from metadata leaves the counter alone. *)
Theorem C80_two_steps : forall P clog rnd now (o : opts P) nc rd m c meta total ss,
  stream_data P o (nx_data (lc_ctx c)) rd (mkSst (ms_out m) (lc_next c)) = (Ok (meta, total), ss) ->
  tree_from P clog rnd now o nc (FromReader rd) (mkWst m (Some c)) =
  tree_from P clog rnd now o nc (FromMeta meta total) (mkWst (mkMst (ss_out ss) (ms_nonce m)) (Some (mkLive (lc_ctx c) (ss_next ss)))) /\
  w_ctx (snd (tree_from P clog rnd now o nc (FromMeta meta total) (mkWst m (Some c)))) = Some c.
Proof.
  intros P clog rnd now o nc rd m c meta total ss H. unfold tree_from, context. cbn [w_ctx w_mst]. rewrite H. split; [reflexivity|].
  destruct (finish _ _ _ _ _ _ _ _ _) as [r m']. reflexivity.
Qed.

(* ---------------- builds ---------------- *)

(* The context given, if any, was made for the same options. *)
Definition known_context {P} (o : opts P) (nc : Z) (given : option live) : Prop :=
  match given with None => True | Some c => nctx_create P o nc = Ok (lc_ctx c) /\ 0 <= lc_next c end.
(* the number of the next chunk *)
Definition next_of (given : option live) : Z := match given with None => 0 | Some c => lc_next c end.

Lemma served_nonempty rs : Forall (fun b => b <> []) (served rs).
Proof. induction rs as [|[[|x b]|e] rs IH]; cbn [served]; constructor; [discriminate|exact IH]. Qed.
Lemma emits_high P (o : opts P) i z l pkts ms : MAX_CHUNK_ID < z -> emits P o i z l pkts ms -> pkts = [] /\ ms = [].
Proof.
  intros Hz H. destruct pkts as [|p pkts], ms as [|m ms], l as [|b l]; cbn [emits] in H; try tauto. destruct H as (D & _).
  destruct D as (nm & w & h & _ & _ & _ & _ & _ & _ & _ & Hi & _). lia.
Qed.

Section Whole.
Context (P : prims) (clog : Z -> Z -> Z -> Z) (rnd : nat -> bytes) (now : fl) (o : opts P) (nc : Z) (rd : reader) (data : bytes)
  (HL : log_ok clog) (HM : op_max o <= 2 ^ 24) (HC : content rd data) (s : wst) (KC : known_context o nc (w_ctx s)).
Let z := next_of (w_ctx s).
Let z' := if z <=? MAX_CHUNK_ID then z else 0.
Let chunks (i : impl) : st (list packet) (list cmeta * Z * Z) := fun out =>
  let '(q, ss) := stream_data P o i rd (mkSst out z) in ('(m, t) <- q ;; Ok (m, t, z' + zlen m), ss_out ss).
Let good (ps : Z) (l : list bytes) : Prop := 1 <= ps /\ l = served (rd ps).
Lemma z_ok : 0 <= z' <= MAX_CHUNK_ID + 1.
Proof.
  assert (0 <= z) as H by (unfold z, next_of; unfold known_context in KC; destruct (w_ctx s); [apply KC|apply Z.le_refl]).
  unfold z'. destruct (z <=? MAX_CHUNK_ID) eqn:E; unfold MAX_CHUNK_ID in *; lia.
Qed.
Lemma good_ok ps l : good ps l -> pieces data l.
Proof. intros (Hp & ->). split; [apply HC; exact Hp|apply served_nonempty]. Qed.
Lemma emits_z i l pkts ms : emits P o i z l pkts ms -> emits P o i z' l pkts ms.
Proof.
  unfold z'. destruct (z <=? MAX_CHUNK_ID) eqn:E; [auto|]. intros H. destruct (emits_high P o i z l pkts ms ltac:(lia) H) as (-> & ->). destruct l; exact I.
Qed.
Lemma chunks_ok i out :
  run (chunks i) out
    (fun r out' => exists ps l pkts ms, payload_size P o i = Ok ps /\ 1 <= ps /\ good ps l /\
       out' = out ++ pkts /\ emits P o i z' l pkts ms /\ length pkts = length l /\
       r = (ms, zlen data, z' + zlen l))
    (fun _ out' => out' = out \/
       exists ps l pkts ms, payload_size P o i = Ok ps /\ 1 <= ps /\ good ps l /\
       out' = out ++ pkts /\ emits P o i z' l pkts ms).
Proof.
  unfold run, chunks. pose proof (stream_data_run P o i rd (mkSst out z)) as R. unfold run in R. cbv zeta in R.
  destruct (stream_data P o i rd (mkSst out z)) as [[[m t]|e] ss]; cbn [bind].
  - destruct R as (ps & pkts & ms & Eps & Hp & -> & He & Ln & Hb & E). injection E as -> ->. cbn [ss_out ss_next] in *.
    exists ps, (served (rd ps)), pkts, ms. split; [exact Eps|]. split; [exact Hp|]. split; [split; auto|]. split; [reflexivity|].
    pose proof (emits_z _ _ _ _ He) as He'. split; [exact He'|]. split; [exact Ln|]. pose proof (emits_nth _ _ _ _ _ _ _ He) as (L1 & _).
    rewrite (HC ps Hp). f_equal. f_equal. unfold zlen. congruence.
  - destruct R as [(E & ->)|(ps & Eps & Hp & [(Hl & Hb & ->)|(pkts & ms & -> & He & Ln & Hf)])]; auto.
    right. exists ps, (served (rd ps)), pkts, ms. cbn [ss_out ss_next] in *. split; [exact Eps|]. split; [exact Hp|]. split; [split; auto|]. split; [reflexivity|].
    apply emits_z. exact He.
Qed.
(* the build as a chain of stages *)
Lemma tree_from_chain r s' : tree_from P clog rnd now o nc (FromReader rd) s = (r, s') ->
  (x <~ lift (nctx_create P o nc) ;;
   '(meta, total, _) <~ on_out (chunks (nx_data x)) ;;
   r <~ on_nonce (tree_params P clog rnd now o x (zlen meta) total) ;;
   top <~ build_top P rnd now (env_of P o x meta r) ;;
   build_root P rnd now o x total top) (w_mst s) = (r, w_mst s').
Proof.
  unfold tree_from, context. intros H.
  assert (C : match w_ctx s with Some c => Ok c | None => x <- nctx_create P o nc ;; Ok (mkLive x 0) end = (x <- nctx_create P o nc ;; Ok (mkLive x z))).
  { unfold z, next_of. destruct (w_ctx s) as [c|]; [|reflexivity]. destruct KC as (E & _). rewrite E. destruct c; reflexivity. }
  rewrite C in H. unfold sbind at 1, lift at 1. destruct (nctx_create P o nc) as [x|e]; cbn [bind] in H; [|injection H as <- <-; reflexivity].
  cbn [lc_ctx lc_next] in H. unfold sbind at 1, on_out at 1, chunks at 1.
  destruct (stream_data P o (nx_data x) rd (mkSst (ms_out (w_mst s)) z)) as [[[meta total]|e] ss]; cbn [bind]; [|injection H as <- <-; reflexivity].
  transitivity (finish P clog rnd now o x meta total (mkMst (ss_out ss) (ms_nonce (w_mst s)))); [reflexivity|].
  destruct (finish P clog rnd now o x meta total (mkMst (ss_out ss) (ms_nonce (w_mst s)))) as [r0 m']. injection H as <- <-. reflexivity.
Qed.
Lemma tree_from_ended r s' : tree_from P clog rnd now o nc (FromReader rd) s = (r, s') -> ended P clog rnd now o nc data (w_mst s) r (w_mst s').
Proof. intros H. apply tree_from_chain in H. eapply build_ended; [exact HL|exact HM|exact z_ok|exact good_ok|exact chunks_ok|exact H]. Qed.
(* the context afterwards *)
Lemma tree_from_ctx root s' : tree_from P clog rnd now o nc (FromReader rd) s = (Ok root, s') ->
  exists x ps, nctx_create P o nc = Ok x /\ payload_size P o (nx_data x) = Ok ps /\ broken (rd ps) = None /\ w_ctx s' = Some (mkLive x (z + zlen (served (rd ps)))).
Proof.
  unfold tree_from, context. intros H.
  assert (C : match w_ctx s with Some c => Ok c | None => x <- nctx_create P o nc ;; Ok (mkLive x 0) end = (x <- nctx_create P o nc ;; Ok (mkLive x z))).
  { unfold z, next_of. destruct (w_ctx s) as [c|]; [|reflexivity]. destruct KC as (E & _). rewrite E. destruct c; reflexivity. }
  rewrite C in H. destruct (nctx_create P o nc) as [x|e]; cbn [bind] in H; [|discriminate]. cbn [lc_ctx lc_next] in H.
  pose proof (stream_data_run P o (nx_data x) rd (mkSst (ms_out (w_mst s)) z)) as R. unfold run in R. cbv zeta in R.
  destruct (stream_data P o (nx_data x) rd (mkSst (ms_out (w_mst s)) z)) as [[[meta total]|e] ss]; [|discriminate].
  destruct (finish P clog rnd now o x meta total (mkMst (ss_out ss) (ms_nonce (w_mst s)))) as [r0 m']. injection H as -> <-.
  destruct R as (ps & pkts & ms & Eps & Hp & -> & _ & _ & Hb & _). exists x, ps. cbn [ss_next w_ctx]. auto.
Qed.
Lemma tree_from_run root s' : tree_from P clog rnd now o nc (FromReader rd) s = (Ok root, s') ->
  exists k' x ps pkts meta num r lv t np b k2, let l := served (rd ps) in
    (setup P clog rnd now o nc data (ms_nonce (w_mst s)) k' x ps l pkts meta num r /\ emits P o (nx_data x) z l pkts meta /\ z + zlen pkts <= MAX_CHUNK_ID + 1 /\ 1 <= zlen pkts) /\
    result P rnd now (env_of P o x meta r) (ms_out (w_mst s) ++ pkts) k' np b lv t /\
    root_packet P rnd now o x (zlen data) (mi_pkt (top t)) (b_nonce b) = (Ok root, k2) /\
    w_mst s' = mkMst (ms_out (w_mst s) ++ pkts ++ map mi_pkt (infos t) ++ [root]) k2 /\
    w_ctx s' = Some (mkLive x (z + zlen pkts)) /\ broken (rd ps) = None.
Proof.
  intros H. destruct (tree_from_ctx _ _ H) as (x0 & ps0 & Ex0 & Eps0 & Hb & Hw). apply tree_from_chain in H.
  pose proof (build_run P clog rnd now o nc data HL HM chunks good z' z_ok good_ok chunks_ok (w_mst s)) as R.
  unfold run in R. rewrite H in R.
  destruct R as (k' & x & ps & l & pkts & meta & num & r & lv & t & np & b & k2 & (SU & (Hp & ->) & He) & RS & RP & Es).
  assert (nctx_create P o nc = Ok x) as Ex by apply SU. rewrite Ex0 in Ex. apply Ok_inj in Ex. subst x0.
  assert (payload_size P o (nx_data x) = Ok ps) as Eps by apply SU. rewrite Eps0 in Eps. apply Ok_inj in Eps. subst ps0.
  assert (length pkts = length (served (rd ps))) as Ln by apply SU.
  pose proof (emits_count _ _ _ _ _ _ _ He z_ok) as (Hc & Lm).
  pose proof (setup_nonempty _ _ _ _ _ _ _ _ _ _ _ _ _ RS) as N.
  assert (z' = z) as Ez.
  { unfold z'. destruct (z <=? MAX_CHUNK_ID) eqn:Ez; [reflexivity|exfalso].
    pose proof (stream_data_run P o (nx_data x) rd (mkSst (ms_out (w_mst s)) z)) as Q. unfold run in Q. cbv zeta in Q.
    unfold sbind at 1, lift at 1 in H. rewrite Ex0 in H. unfold sbind at 1, on_out at 1, chunks at 1 in H.
    destruct (stream_data P o (nx_data x) rd (mkSst (ms_out (w_mst s)) z)) as [[[m0 t0]|e] ss]; [|discriminate].
    destruct Q as (ps1 & pk & ms & Eps1 & _ & _ & He1 & Ln1 & _ & _). rewrite Eps0 in Eps1. apply Ok_inj in Eps1. subst ps1.
    cbn [ss_next] in He1. destruct (emits_high P o _ z _ _ _ ltac:(lia) He1) as (-> & _). cbn [length] in Ln1. unfold zlen in N. lia. }
  rewrite Ez in *. exists k', x, ps, pkts, meta, num, r, lv, t, np, b, k2. cbv zeta.
  assert (zlen meta = zlen pkts) as Em by (unfold zlen; congruence). assert (zlen pkts = zlen (served (rd ps))) as El by (unfold zlen; congruence).
  split; [split; [exact SU|split; [exact He|lia]]|]. split; [exact RS|]. split; [exact RP|]. split; [exact Es|]. split; [|exact Hb].
  rewrite Hw, El. reflexivity.
Qed.
End Whole.

(* Only reads of one size are made, so that every stream has a content. *)
Lemma one_size P clog rnd now (o : opts P) nc rd s : known_context o nc (w_ctx s) -> exists rs,
  (forall x ps, nctx_create P o nc = Ok x -> payload_size P o (nx_data x) = Ok ps -> rs = rd ps) /\
  tree_from P clog rnd now o nc (FromReader rd) s = tree_from P clog rnd now o nc (FromReader (fun _ => rs)) s.
Proof.
  intros KC.
  assert (C : context P o nc (w_ctx s) = (x <- nctx_create P o nc ;; Ok (mkLive x (next_of (w_ctx s))))).
  { unfold context, next_of. destruct (w_ctx s) as [c|]; [|reflexivity]. destruct KC as (E & _). rewrite E. destruct c; reflexivity. }
  unfold tree_from. rewrite C. destruct (nctx_create P o nc) as [x|e]; cbn [bind].
  2:{ exists []. split; [intros ? ? H; discriminate H|reflexivity]. }
  cbn [lc_ctx lc_next]. destruct (payload_size P o (nx_data x)) as [ps|e] eqn:Eps.
  - exists (rd ps). split; [intros x' ps' Ex E; apply Ok_inj in Ex; subst x'; congruence|].
    assert (stream_data P o (nx_data x) rd = stream_data P o (nx_data x) (fun _ => rd ps)) as <-; [|reflexivity].
    unfold stream_data. rewrite Eps. reflexivity.
  - exists []. split; [intros x' ps' Ex E; apply Ok_inj in Ex; subst x'; congruence|].
    assert (stream_data P o (nx_data x) rd = stream_data P o (nx_data x) (fun _ => [])) as <-; [|reflexivity].
    unfold stream_data. rewrite Eps. reflexivity.
Qed.
Lemma const_content rs : content (fun _ => rs) (concat (served rs)).
Proof. intros n _. reflexivity. Qed.

(* However the reads are cut, and whatever chunks the context has numbered
   before: no packet before those it points to; a build that succeeds can be
   read back; any store whose packets have their hashes gives nothing but a
   prefix of the stream; manifests are encrypted and the root is signed. *)
Theorem C80_no_dangling : forall P clog rnd now (o : opts P) nc rd s r s',
  log_ok clog -> op_max o <= 2 ^ 24 -> known_context o nc (w_ctx s) ->
  tree_from P clog rnd now o nc (FromReader rd) s = (r, s') ->
  exists new, ms_out (w_mst s') = ms_out (w_mst s) ++ new /\ no_dangling o new.
Proof.
  intros P clog rnd now o nc rd s r s' HL HM KC H. destruct (one_size P clog rnd now o nc rd s KC) as (rs & _ & E). rewrite E in H.
  eapply ended_no_dangling; [exact HL|exact HM|]. eapply tree_from_ended; try eassumption. apply const_content.
Qed.
Theorem C80_read_back : forall P clog rnd now (o : opts P) nc rd data s root s' ks get,
  log_ok clog -> op_max o <= 2 ^ 24 -> nc + 1 < 2 ^ 64 ->
  aead_correct P -> oaep_correct P -> sig_correct P ->
  op_type o <> Segmented -> plain_prefixes o -> printable_locators o -> equipped o ks -> ms_out (w_mst s) = [] ->
  content rd data -> known_context o nc (w_ctx s) ->
  tree_from P clog rnd now o nc (FromReader rd) s = (Ok root, s') ->
  no_collisions P (ms_out (w_mst s')) -> keeps P (ms_out (w_mst s')) get ->
  exists hr, packet_hash (pr_sha P) root = Ok hr /\
    reads_back get ks (op_name o) hr (length (ms_out (w_mst s'))) data (zlen (ms_out (w_mst s'))).
Proof.
  intros P clog rnd now o nc rd data s root s' ks get HL HM Hnc Ha Ho Hsg Hty Hpl Hpr Heq Hs HC KC H NC K.
  eapply built_reads; try eassumption. exact (tree_from_ended P clog rnd now o nc rd data HL HM HC s KC (Ok root) s' H).
Qed.
(* n reads give something, and the optimizer picks r *)
Definition stream_parameters (P : prims) clog rnd now (o : opts P) (nc : Z) (rd : reader) (data : bytes) (k : nat) (n : Z) (r : optres) : Prop :=
  exists x ps k', nctx_create P o nc = Ok x /\ payload_size P o (nx_data x) = Ok ps /\
    n = zlen (served (rd ps)) /\ tree_params P clog rnd now o x n (zlen data) k = (Ok r, k').
Theorem C80_segmented : forall P clog rnd now (o : opts P) nc rd data s root s' ks get n r,
  log_exact clog -> op_max o <= 2 ^ 24 -> nc + 1 < 2 ^ 64 ->
  aead_correct P -> oaep_correct P -> sig_correct P ->
  op_type o = Segmented -> plain_prefixes o -> equipped o ks -> ms_out (w_mst s) = [] ->
  content rd data -> known_context o nc (w_ctx s) ->
  tree_from P clog rnd now o nc (FromReader rd) s = (Ok root, s') ->
  stream_parameters P clog rnd now o nc rd data (ms_nonce (w_mst s)) n r -> n = 1 \/ 2 <= or_m r ->
  no_collisions P (ms_out (w_mst s')) -> keeps P (ms_out (w_mst s')) get ->
  exists hr, packet_hash (pr_sha P) root = Ok hr /\
    reads_back get ks (op_name o) hr (length (ms_out (w_mst s'))) data (zlen (ms_out (w_mst s'))).
Proof.
  intros P clog rnd now o nc rd data s root s' ks get n r HL HM Hnc Ha Ho Hsg Hty Hpl Heq Hs HC KC H PA Hnr NC K.
  pose proof (log_exact_ok _ HL) as HL'.
  destruct (tree_from_run P clog rnd now o nc rd data HL' HM HC s KC root s' H) as (k' & x & ps & pkts & meta & num & r' & lv & t & np & b & k2 & (SU & _) & RS & RP & Es & _).
  rewrite Es in *. cbn [ms_out] in *. rewrite Hs in *. cbn [app] in *.
  assert (printable_locators o) as Hpr by (unfold printable_locators; rewrite Hty; exact I).
  destruct PA as (x1 & ps1 & k1 & Ex & Eps & -> & ET). rewrite (su_ctx _ _ _ _ _ _ _ _ _ _ _ _ _ _ _ _ SU) in Ex. apply Ok_inj in Ex. subst x1.
  rewrite (su_ps _ _ _ _ _ _ _ _ _ _ _ _ _ _ _ _ SU) in Eps. apply Ok_inj in Eps. subst ps1.
  pose proof (setup_count _ _ _ _ _ _ _ _ _ _ _ _ _ _ _ _ SU) as Ec. rewrite <- Ec in *.
  pose proof (setup_params _ _ _ _ _ _ _ _ _ _ _ _ _ _ _ _ SU) as ET'. rewrite ET in ET'. injection ET' as -> ->.
  eapply (store_reads P clog rnd now o nc data HM Hnc Ha Ho Hsg Hpl Hpr ks Heq _ _ _ _ _ _ _ _ _ SU _ _ _ _ _ RS _ _ root RP get NC K).
  intros _. eapply (top_zero P clog rnd now o nc data HM _ _ _ _ _ _ _ _ _ SU _ _ _ _ _ RS); assumption.
Qed.
Theorem C80_integrity : forall P clog rnd now (o : opts P) nc rd data s root s' ks get nm hr fuel r st,
  log_ok clog -> op_max o <= 2 ^ 24 -> nc + 1 < 2 ^ 64 -> aead_correct P -> oaep_correct P -> can_open o ks ->
  content rd data -> known_context o nc (w_ctx s) ->
  tree_from P clog rnd now o nc (FromReader rd) s = (Ok root, s') -> packet_hash (pr_sha P) root = Ok hr ->
  hash_checked P get -> no_second_preimage P (ms_out (w_mst s')) get ->
  traverse P get true fuel nm (Some hr) (tst_new P ks) = (r, st) ->
  exists rest, data = concat (ts_out st) ++ rest /\ (r = Ok tt -> rest = []) /\
    ts_count st <= zlen (ms_out (w_mst s')) - zlen (ms_out (w_mst s)).
Proof.
  intros P clog rnd now o nc rd data s root s' ks get nm hr fuel r st HL HM Hnc Ha Ho Hopen HC KC H Hhr Hck NP Ht.
  eapply built_integrity; try eassumption. exact (tree_from_ended P clog rnd now o nc rd data HL HM HC s KC (Ok root) s' H).
Qed.
Theorem C80_protected : forall P clog rnd now (o : opts P) nc rd s r s',
  log_ok clog -> op_max o <= 2 ^ 24 -> known_context o nc (w_ctx s) ->
  tree_from P clog rnd now o nc (FromReader rd) s = (r, s') ->
  exists new, ms_out (w_mst s') = ms_out (w_mst s) ++ new /\ (forall root, r = Ok root -> exists pre, new = pre ++ [root]) /\
    forall pre p post, new = pre ++ p :: post ->
      match r, post with
      | Ok root, [] => p = root /\ exists m, manifest_object p m /\ protected o true m /\ signed o now p
      | _, _ => (is_data_object p /\ unsigned p) \/ (exists m, manifest_object p m /\ protected o false m /\ unsigned p)
      end.
Proof.
  intros P clog rnd now o nc rd s r s' HL HM KC H. destruct (one_size P clog rnd now o nc rd s KC) as (rs & _ & E). rewrite E in H.
  eapply ended_protected; [exact HL|exact HM|]. eapply tree_from_ended; try eassumption. apply const_content.
Qed.

(* ---------------- one context for several files ---------------- *)

(* the names of the data objects in a list of packets *)
Definition data_objectb (p : packet) : bool :=
  match p_body p with BCO c => match co_ptype c with Some t => t =? PT_DATA | None => false end | _ => false end.
Definition data_names (ps : list packet) : list (option name) := map body_name (filter data_objectb ps).

(* ManifestTree for one stream after the other, each with the context of the
   one before, whether that has succeeded or not *)
Fixpoint build_all (P : prims) clog rnd now (o : opts P) (nc : Z) (rds : list reader) (s : wst) : list (res packet) * wst :=
  match rds with
  | [] => ([], s)
  | rd :: rds =>
      let '(r, s) := tree_from P clog rnd now o nc (FromReader rd) s in
      let '(rs, s) := build_all P clog rnd now o nc rds s in
      (r :: rs, s)
  end.

Lemma sorted_app (a b : list Z) : StronglySorted Z.lt a -> StronglySorted Z.lt b -> (forall x y, In x a -> In y b -> x < y) -> StronglySorted Z.lt (a ++ b).
Proof.
  induction a as [|x a IH]; intros Ha Hb H; [exact Hb|]. inversion Ha as [|? ? Ha' F]; subst. cbn [app]. constructor.
  - apply IH; [exact Ha'|exact Hb|]. intros u v Hu Hv. apply H; [now right|exact Hv].
  - apply Forall_app. split; [exact F|]. apply Forall_forall. intros v Hv. apply H; [now left|exact Hv].
Qed.
Lemma zrange_sorted a b : StronglySorted Z.lt (zrange a b).
Proof.
  remember (Z.to_nat (b - a)) as n eqn:E. revert a E. induction n as [|n IH]; intros a E.
  - rewrite zrange_nil by lia. constructor.
  - rewrite zrange_cons by lia. constructor; [apply IH; lia|]. apply Forall_forall. intros x Hx. apply zrange_in in Hx. lia.
Qed.
Lemma sorted_nodup (l : list Z) : StronglySorted Z.lt l -> NoDup l.
Proof.
  induction 1 as [|x l _ IH F]; constructor; [|exact IH]. intros I. rewrite Forall_forall in F. specialize (F x I). lia.
Qed.
Lemma filter_none {A} (f : A -> bool) l : (forall x, In x l -> f x = false) -> filter f l = [].
Proof. induction l as [|x l IH]; intros H; [reflexivity|]. cbn [filter]. rewrite (H x (or_introl eq_refl)). apply IH. intros y Hy. apply H. now right. Qed.
Lemma filter_every {A} (f : A -> bool) l : (forall x, In x l -> f x = true) -> filter f l = l.
Proof. induction l as [|x l IH]; intros H; [reflexivity|]. cbn [filter]. rewrite (H x (or_introl eq_refl)). f_equal. apply IH. intros y Hy. apply H. now right. Qed.
Lemma emits_data_names P (o : opts P) nc x (Hx : nctx_create P o nc = Ok x) l : forall z pkts ms, 0 <= z -> emits P o (nx_data x) z l pkts ms ->
  data_names pkts = map (object_name o false) (zrange z (z + zlen pkts)).
Proof.
  induction l as [|b l IH]; intros z [|p pkts] [|m ms] Hz H; cbn [emits] in H; try tauto.
  1,2: rewrite zlen_nil, zrange_nil by lia; reflexivity.
  destruct H as (D & H). pose proof (zlen_nonneg pkts). rewrite zlen_cons, zrange_cons by lia. cbn [map].
  destruct D as (nm & w & h & Hn & Hb & _ & _ & _ & _ & _ & Hid & _).
  unfold data_names. cbn [filter]. unfold data_objectb at 1. rewrite Hb. cbn [co_ptype]. change (PT_DATA =? PT_DATA) with true. cbv iota. cbn [map].
  f_equal.
  - unfold body_name. rewrite Hb. cbn [co_name]. eapply nctx_names; [exact Hx| |exact Hn]. unfold MAX_CHUNK_ID in Hid. change (2 ^ 64) with 18446744073709551616. lia.
  - fold (data_names pkts). rewrite (IH (z + 1) pkts ms) by (assumption || lia). do 2 f_equal. lia.
Qed.
(* manifests are no data objects *)
Lemma forest_no_data P rnd now (o : opts P) nc x (Hx : nctx_create P o nc = Ok x) meta r ts :
  Forall (fun t => exists lv, wf P rnd now (env_of P o x meta r) lv t) ts -> filter data_objectb (map mi_pkt (forest_infos ts)) = [].
Proof.
  intros W. apply filter_none. intros p Hp. apply in_map_iff in Hp as (i & <- & Hi). apply (Permutation_in _ (forest_infos_perm ts)) in Hi.
  apply in_flat_map in Hi as (t & Ht & Hi). rewrite Forall_forall in W. destruct (W t Ht) as (lv & Wt).
  apply (Permutation_in _ (infos_subtrees t)) in Hi. apply in_map_iff in Hi as (u & <- & Hu).
  pose proof (wf_all_faithful P rnd now (env_of P o x meta r) lv t (nctx_create_wf _ _ _ _ Hx) Wt) as F.
  rewrite Forall_forall in F. destruct (F u Hu) as ((m & w & _ & _ & _ & Hb & _) & _). unfold data_objectb. rewrite Hb. reflexivity.
Qed.
Lemma finish_run P clog rnd now (o : opts P) nc x (Hx : nctx_create P o nc = Ok x) meta total s : log_ok clog -> op_max o <= 2 ^ 24 -> zlen meta <= 2 ^ 32 ->
  run (finish P clog rnd now o x meta total) s
    (fun _ s' => exists more, ms_out s' = ms_out s ++ more /\ filter data_objectb more = [] /\ meta <> [])
    (fun _ s' => exists more, ms_out s' = ms_out s ++ more /\ filter data_objectb more = []).
Proof.
  intros HL HM Hn. unfold finish. apply run_bind. unfold run at 1, on_nonce at 1.
  assert (Q0 : forall s' : mst, ms_out s' = ms_out s -> exists more, ms_out s' = ms_out s ++ more /\ filter data_objectb more = []).
  { intros s' ->. exists []. now rewrite app_nil_r. }
  pose proof (tree_params_run P clog rnd now o HL HM x (zlen meta) total (ms_nonce s) (nctx_create_wf _ _ _ _ Hx) meta eq_refl (conj (zlen_nonneg meta) Hn)) as R.
  unfold run in R. destruct (tree_params P clog rnd now o x (zlen meta) total (ms_nonce s)) as [[r|e] k']; [|apply Q0; reflexivity].
  destruct R as (num & _ & _ & _ & U). set (v := env_of P o x meta r) in *.
  apply run_bind. unfold run at 1. unfold build_top at 1. cbn [ms_nonce ms_out].
  destruct (tb_init P v (ms_out s) k') as [b0|e] eqn:EI; [|apply Q0; reflexivity].
  pose proof (build_result P rnd now v (ms_out s) k' b0 U EI) as R. unfold run in R.
  destruct (tb_build P rnd now v b0) as [[np|e] b]; cbn [bind].
  2:{ destruct R as (_ & ts & W & Eo & _). eexists. cbn [ms_out]. split; [exact Eo|]. exact (forest_no_data P rnd now o nc x Hx meta r ts W). }
  destruct R as (lv & t & R). pose proof (rs_shows _ _ _ _ _ _ _ _ _ _ R) as (Enp & Eo & _). rewrite Enp. cbn [snd].
  assert (filter data_objectb (map mi_pkt (infos t)) = []) as F0.
  { pose proof (forest_no_data P rnd now o nc x Hx meta r [t]) as F0. rewrite forest_infos_one in F0. apply F0. constructor; [|constructor]. exists lv. apply R. }
  unfold build_root. apply run_bind. unfold run at 1. unfold on_nonce. cbn [ms_nonce ms_out].
  destruct (root_packet P rnd now o x total (mi_pkt (top t)) (b_nonce b)) as [[root|e] k2] eqn:ER.
  2:{ eexists. cbn [ms_out]. split; [exact Eo|exact F0]. }
  unfold sbind, on_out, smod, sret, run. cbn [ms_out ms_nonce]. eexists. rewrite Eo, <- app_assoc. split; [reflexivity|]. split.
  - rewrite filter_app, F0. apply root_inv in ER as (h & m & w & _ & _ & _ & _ & _ & Hb & _). cbn [filter app]. unfold data_objectb. now rewrite Hb.
  - intros ->. pose proof (setup_nonempty _ _ _ _ _ _ _ _ _ _ _ _ _ R) as N. rewrite zlen_nil in N. lia.
Qed.
(* The data objects of a build have the names that belong to the numbers from
   the counter before on; the counter afterwards is behind the last of them, or
   one more if the last piece could not be put. *)
Theorem C80_numbers : forall P clog rnd now (o : opts P) nc rd s r s',
  log_ok clog -> op_max o <= 2 ^ 24 -> known_context o nc (w_ctx s) ->
  tree_from P clog rnd now o nc (FromReader rd) s = (r, s') ->
  exists new m, ms_out (w_mst s') = ms_out (w_mst s) ++ new /\
    data_names new = map (object_name o false) (zrange (next_of (w_ctx s)) m) /\
    next_of (w_ctx s) <= m <= Z.max (next_of (w_ctx s)) (MAX_CHUNK_ID + 1) /\ known_context o nc (w_ctx s') /\
    match r with
    | Ok _ => next_of (w_ctx s) < m /\ next_of (w_ctx s') = m
    | Err _ => next_of (w_ctx s') = m \/ next_of (w_ctx s') = m + 1
    end.
Proof.
  intros P clog rnd now o nc rd s r s' HL HM KC H. set (z := next_of (w_ctx s)).
  assert (0 <= z) as Hz by (unfold z, next_of; unfold known_context in KC; destruct (w_ctx s); [apply KC|apply Z.le_refl]).
  assert (C : context P o nc (w_ctx s) = (x <- nctx_create P o nc ;; Ok (mkLive x z))).
  { unfold context, z, next_of. destruct (w_ctx s) as [c|]; [|reflexivity]. destruct KC as (E & _). rewrite E. destruct c; reflexivity. }
  unfold tree_from in H. rewrite C in H. destruct (nctx_create P o nc) as [x|e] eqn:Hx; cbn [bind] in H.
  2:{ injection H as <- <-. exists [], z. rewrite app_nil_r, zrange_nil by lia. repeat split; auto; lia. }
  cbn [lc_ctx lc_next] in H.
  assert (CNT : forall l pkts ms, emits P o (nx_data x) z l pkts ms -> z <= z + zlen pkts <= Z.max z (MAX_CHUNK_ID + 1)).
  { intros l pkts ms He. pose proof (zlen_nonneg pkts). split; [lia|]. destruct (z <=? MAX_CHUNK_ID) eqn:Ez.
    - pose proof (emits_count _ _ _ _ _ _ _ He ltac:(lia)) as (Hc & Lm). assert (zlen ms = zlen pkts) by (unfold zlen; congruence). lia.
    - destruct (emits_high P o _ z _ _ _ ltac:(lia) He) as (-> & _). rewrite zlen_nil. lia. }
  pose proof (stream_data_run P o (nx_data x) rd (mkSst (ms_out (w_mst s)) z)) as R. unfold run in R. cbv zeta in R.
  destruct (stream_data P o (nx_data x) rd (mkSst (ms_out (w_mst s)) z)) as [[[meta total]|e] ss].
  - destruct R as (ps & pkts & ms & Eps & Hp & -> & He & Ln & Hb & E). injection E as -> ->. cbn [ss_out ss_next] in *.
    pose proof (CNT _ _ _ He) as Hc. pose proof (emits_nth _ _ _ _ _ _ _ He) as (L1 & _).
    assert (zlen pkts = zlen (served (rd ps))) as El by (unfold zlen; congruence). assert (zlen ms = zlen pkts) as Em by (unfold zlen; congruence).
    assert (zlen ms <= 2 ^ 32) as Hm by (change (2 ^ 32) with 4294967296; unfold MAX_CHUNK_ID in *; lia).
    pose proof (finish_run P clog rnd now o nc x Hx ms (zlen (concat (served (rd ps)))) (mkMst (ms_out (w_mst s) ++ pkts) (ms_nonce (w_mst s))) HL HM Hm) as R.
    unfold run in R. destruct (finish P clog rnd now o x ms _ _) as [[root|e] m'].
    + injection H as <- <-. destruct R as (more & Eo & F & N). cbn [ms_out w_mst w_ctx next_of lc_next known_context lc_ctx] in *.
      exists (pkts ++ more), (z + zlen pkts). rewrite Eo, app_assoc. split; [reflexivity|]. split; [|split; [exact Hc|split; [split; [exact Hx|lia]|]]].
      * unfold data_names. rewrite filter_app, F, app_nil_r. exact (emits_data_names P o nc x Hx _ _ _ _ Hz He).
      * destruct ms; [congruence|]. rewrite zlen_cons in Em. pose proof (zlen_nonneg ms). lia.
    + injection H as <- <-. destruct R as (more & Eo & F). cbn [ms_out w_mst w_ctx next_of lc_next known_context lc_ctx] in *.
      exists (pkts ++ more), (z + zlen pkts). rewrite Eo, app_assoc. split; [reflexivity|]. split; [|split; [exact Hc|split; [split; [exact Hx|lia]|lia]]].
      unfold data_names. rewrite filter_app, F, app_nil_r. exact (emits_data_names P o nc x Hx _ _ _ _ Hz He).
  - injection H as <- <-. cbn [ms_out w_mst w_ctx next_of lc_next known_context lc_ctx].
    assert (S0 : ss = mkSst (ms_out (w_mst s)) z -> exists new m, ss_out ss = ms_out (w_mst s) ++ new /\
      data_names new = map (object_name o false) (zrange z m) /\ z <= m <= Z.max z (MAX_CHUNK_ID + 1) /\ (nctx_create P o nc = Ok x /\ 0 <= ss_next ss) /\ (ss_next ss = m \/ ss_next ss = m + 1)).
    { intros ->. exists [], z. cbn [ss_out ss_next]. rewrite app_nil_r, zrange_nil by lia. repeat split; auto; lia. }
    destruct R as [(_ & E)|(ps & _ & _ & [(_ & _ & E)|(pkts & ms & -> & He & _)])]; [exact (S0 E)|exact (S0 E)|]. clear S0. cbn [ss_out ss_next] in *.
    pose proof (CNT _ _ _ He) as Hc. exists pkts, (z + zlen pkts). split; [reflexivity|].
    split; [exact (emits_data_names P o nc x Hx _ _ _ _ Hz He)|]. split; [exact Hc|]. split; [split; [exact Hx|lia]|]. right. lia.
Qed.
(* One context for any number of streams, whether their builds succeed or not:
   the numbers of the data objects increase, and in the segmented schema no two
   of them have the same name; when all builds succeed no number is left out. *)
Theorem C80_sequence : forall P clog rnd now (o : opts P) nc rds s,
  log_ok clog -> op_max o <= 2 ^ 24 -> known_context o nc (w_ctx s) ->
  let '(rs, s') := build_all P clog rnd now o nc rds s in
  exists new nums, ms_out (w_mst s') = ms_out (w_mst s) ++ new /\ length rs = length rds /\
    data_names new = map (object_name o false) nums /\ StronglySorted Z.lt nums /\
    Forall (fun k => next_of (w_ctx s) <= k < next_of (w_ctx s') /\ k <= MAX_CHUNK_ID) nums /\
    (Forall (fun r => exists root, r = Ok root) rs -> nums = zrange (next_of (w_ctx s)) (next_of (w_ctx s'))) /\
    (op_type o = Segmented -> NoDup (data_names new)).
Proof.
  intros P clog rnd now o nc rds s HL HM KC. destruct (build_all P clog rnd now o nc rds s) as [rs s'] eqn:H.
  assert (G : exists new nums, ms_out (w_mst s') = ms_out (w_mst s) ++ new /\ length rs = length rds /\
    data_names new = map (object_name o false) nums /\ StronglySorted Z.lt nums /\
    Forall (fun k => next_of (w_ctx s) <= k < next_of (w_ctx s') /\ k <= MAX_CHUNK_ID) nums /\
    (Forall (fun r => exists root, r = Ok root) rs -> nums = zrange (next_of (w_ctx s)) (next_of (w_ctx s'))) /\
    next_of (w_ctx s) <= next_of (w_ctx s')).
  { revert s rs s' KC H. induction rds as [|rd rds IH]; intros s rs s' KC H.
    - injection H as <- <-. exists [], []. rewrite app_nil_r, zrange_nil by lia. repeat split; auto; try constructor; lia.
    - cbn [build_all] in H. destruct (tree_from P clog rnd now o nc (FromReader rd) s) as [r s1] eqn:E1.
      destruct (C80_numbers P clog rnd now o nc rd s r s1 HL HM KC E1) as (n1 & m & O1 & D1 & M1 & K1 & R1).
      destruct (build_all P clog rnd now o nc rds s1) as [rs2 s2] eqn:E2. injection H as <- <-.
      destruct (IH s1 rs2 s2 K1 E2) as (n2 & nums & O2 & Ln & D2 & S2 & F2 & A2 & L2).
      assert (m <= next_of (w_ctx s1)) as Hm by (destruct r; lia).
      exists (n1 ++ n2), (zrange (next_of (w_ctx s)) m ++ nums). rewrite O2, O1, app_assoc. split; [reflexivity|]. split; [cbn [length]; lia|].
      split; [unfold data_names in *; rewrite filter_app, !map_app, D1, D2; reflexivity|].
      split; [|split; [|split; [|lia]]].
      + apply sorted_app; [apply zrange_sorted|exact S2|]. intros a b Ha Hb. apply zrange_in in Ha. rewrite Forall_forall in F2. destruct (F2 b Hb). lia.
      + apply Forall_app. split; [|eapply Forall_impl; [|exact F2]; cbn; intros k Hk; lia].
        apply Forall_forall. intros k Hk. apply zrange_in in Hk. lia.
      + intros A. inversion A as [|? ? (root & ->) A']; subst. destruct R1 as (R1 & R1'). rewrite (A2 A'), R1'. symmetry. apply zrange_app. lia. }
  destruct G as (new & nums & O & Ln & D & S & F & A & _). exists new, nums. repeat (split; [assumption|]). intros T. rewrite D.
  destruct nums as [|k0 nums]; [constructor|].
  assert (Hz : 0 <= next_of (w_ctx s)) by (unfold next_of; unfold known_context in KC; destruct (w_ctx s); [apply KC|apply Z.le_refl]).
  assert (NP : exists x, nctx_create P o nc = Ok x).
  { destruct (nctx_create P o nc) as [x|e] eqn:Hx; [eauto|exfalso]. destruct new as [|p new]; [discriminate D|].
    assert (w_mst s' = w_mst s) as Es.
    { clear -Hx KC H. revert s rs s' KC H. induction rds as [|rd rds IH]; intros s rs s' KC H; [now injection H as <- <-|].
      cbn [build_all] in H. unfold tree_from, context in H. pose proof KC as KC'. unfold known_context in KC'.
      destruct (w_ctx s) as [c|] eqn:Ec; [destruct KC' as (KC' & _); rewrite Hx in KC'; discriminate KC'|].
      rewrite Hx in H. cbn [bind] in H. destruct (build_all P clog rnd now o nc rds s) as [r2 s2] eqn:E2. injection H as <- <-.
      apply (IH s r2 s2); [rewrite Ec; exact I|exact E2]. }
    rewrite Es in O. apply (f_equal (@length packet)) in O. rewrite app_length in O. cbn [length] in O. lia. }
  destruct NP as (x & Ex).
  assert (NP : prefix_of o false <> None).
  { unfold nctx_create in Ex. rewrite T in Ex. unfold create_segmented in Ex. apply bind_ok in Ex as (? & Gd & _).
    apply guard_ok in Gd. unfold prefix_of. destruct (op_dprefix o); try discriminate; destruct (op_name o); discriminate. }
  apply nodup_map_inj; [|apply sorted_nodup; exact S]. intros a b Ha Hb E. rewrite Forall_forall in F. destruct (F a Ha), (F b Hb).
  apply (object_name_inj P o false false a b T) in E as (_ & E); [exact E| | |exact NP]; unfold MAX_CHUNK_ID in *; change (2 ^ 64) with 18446744073709551616; lia.
Qed.
(* The manifests are not numbered with the context: in every build the name of
   the top manifest is that of number 0 (when the optimizer picks at least two
   indirect pointers or there is one chunk), so that with one context for two
   streams two manifests share a name. *)
Theorem C80_manifest_names_refuted : forall P clog rnd now (o : opts P) nc rd1 rd2 d1 d2 s r1 s1 r2 s2 n1 p1 n2 p2,
  log_exact clog -> op_max o <= 2 ^ 24 -> op_type o = Segmented -> content rd1 d1 -> content rd2 d2 -> known_context o nc (w_ctx s) ->
  tree_from P clog rnd now o nc (FromReader rd1) s = (Ok r1, s1) -> tree_from P clog rnd now o nc (FromReader rd2) s1 = (Ok r2, s2) ->
  stream_parameters P clog rnd now o nc rd1 d1 (ms_nonce (w_mst s)) n1 p1 -> n1 = 1 \/ 2 <= or_m p1 ->
  stream_parameters P clog rnd now o nc rd2 d2 (ms_nonce (w_mst s1)) n2 p2 -> n2 = 1 \/ 2 <= or_m p2 ->
  exists pre a mid b post nd1 nd2, ms_out (w_mst s2) = pre ++ a :: mid ++ b :: post /\
    holds_node o a nd1 /\ holds_node o b nd2 /\ body_name a <> None /\ body_name a = body_name b.
Proof.
  intros P clog rnd now o nc rd1 rd2 d1 d2 s r1 s1 r2 s2 n1 p1 n2 p2 HL HM T C1 C2 KC H1 H2 PA1 Q1 PA2 Q2.
  pose proof (log_exact_ok _ HL) as HL'.
  assert (TOP : forall rd d s r s' n p, content rd d -> known_context o nc (w_ctx s) -> tree_from P clog rnd now o nc (FromReader rd) s = (Ok r, s') ->
    stream_parameters P clog rnd now o nc rd d (ms_nonce (w_mst s)) n p -> n = 1 \/ 2 <= or_m p ->
    exists new a nd, ms_out (w_mst s') = ms_out (w_mst s) ++ new /\ In a new /\ holds_node o a nd /\ body_name a = object_name o true 0 /\ object_name o true 0 <> None).
  { clear s s1 KC H1 H2 PA1 PA2. intros rd d s r s' n p HC KC H PA Hn.
    destruct (tree_from_run P clog rnd now o nc rd d HL' HM HC s KC r s' H) as (k' & x & ps & pkts & meta & num & r' & lv & t & np & b & k2 & (SU & _) & RS & RP & Es & _).
    destruct PA as (x1 & ps1 & k1 & Ex & Eps & -> & ET). pose proof Ex as Ex'. rewrite (su_ctx _ _ _ _ _ _ _ _ _ _ _ _ _ _ _ _ SU) in Ex. apply Ok_inj in Ex. subst x1.
    rewrite (su_ps _ _ _ _ _ _ _ _ _ _ _ _ _ _ _ _ SU) in Eps. apply Ok_inj in Eps. subst ps1.
    pose proof (setup_count _ _ _ _ _ _ _ _ _ _ _ _ _ _ _ _ SU) as Ec. rewrite <- Ec in *.
    pose proof (setup_params _ _ _ _ _ _ _ _ _ _ _ _ _ _ _ _ SU) as ET'. rewrite ET in ET'. injection ET' as -> ->.
    assert (mi_id (top t) = 0) as Z0 by (eapply (top_zero P clog rnd now o nc d HM _ _ _ _ _ _ _ _ _ SU _ _ _ _ _ RS); assumption).
    pose proof (wf_faithful P rnd now (env_of P o x meta r') lv t (nctx_create_wf _ _ _ _ Ex') (rs_wf _ _ _ _ _ _ _ _ _ _ RS)) as (Hc & Hnm & _).
    eexists _, (mi_pkt (top t)), (mi_node (top t)). rewrite Es. cbn [ms_out]. split; [reflexivity|]. split; [|split; [|split]].
    - apply in_app_iff. right. apply in_app_iff. left. apply in_map. rewrite <- order_infos. apply in_map. apply order_self.
    - eapply carries_holds; [|exact Hc]. reflexivity.
    - destruct Hc as (m & w & _ & _ & _ & Hb & _). unfold body_name. rewrite Hb. cbn [co_name]. rewrite <- Z0. eapply nctx_names; [exact Ex'| |exact Hnm].
      rewrite Z0. change (2 ^ 64) with 18446744073709551616. lia.
    - unfold nctx_create in Ex'. rewrite T in Ex'. unfold create_segmented in Ex'. apply bind_ok in Ex' as (? & Gd & _).
      apply guard_ok in Gd. unfold object_name, prefix_of. rewrite T. destruct (op_mprefix o); try discriminate; destruct (op_name o); discriminate. }
  destruct (C80_numbers P clog rnd now o nc rd1 s (Ok r1) s1 HL' HM KC H1) as (_ & _ & _ & _ & _ & K1 & _).
  destruct (TOP _ _ _ _ _ _ _ C1 KC H1 PA1 Q1) as (w1 & a & nd1 & E1 & I1 & N1 & B1 & NN).
  destruct (TOP _ _ _ _ _ _ _ C2 K1 H2 PA2 Q2) as (w2 & b & nd2 & E2 & I2 & N2 & B2 & _).
  apply in_split in I1 as (x1 & y1 & ->). apply in_split in I2 as (x2 & y2 & ->).
  exists (ms_out (w_mst s) ++ x1), a, (y1 ++ x2), b, y2, nd1, nd2. rewrite E2, E1, <- !app_assoc. cbn [app]. split; [reflexivity|].
  split; [exact N1|]. split; [exact N2|]. split; congruence.
Qed.

(* ---------------- examples ---------------- *)

(* a file, read n bytes at a time *)
Fixpoint chop (fuel : nat) (n : Z) (d : bytes) : list bytes :=
  match fuel, d with
  | O, _ | _, [] => []
  | S f, _ => ztake n d :: chop f n (zskip n d)
  end.
Definition file_reader (d : bytes) : reader := fun n => map Ok (chop (length d) n d).
Lemma chop_splits n : 1 <= n -> forall f d, (length d <= f)%nat -> splits n d (chop f n d).
Proof.
  intros Hn. induction f as [|f IH]; intros d L; destruct d as [|x d]; cbn [chop]; try constructor; try (cbn in L; lia).
  - discriminate.
  - apply IH. unfold zskip. rewrite skipn_length. cbn [length] in *. lia.
Qed.
Lemma served_ok (l : list bytes) : Forall (fun b => b <> []) l -> served (map Ok l) = l /\ broken (map Ok l) = None.
Proof.
  induction 1 as [|b l Hb _ (IH1 & IH2)]; [split; reflexivity|]. destruct b as [|x b]; [congruence|]. cbn [map served broken]. rewrite IH1, IH2. auto.
Qed.
Lemma file_reader_full d : full_reads (file_reader d) d.
Proof.
  intros n Hn. pose proof (splits_cut _ _ _ Hn (chop_splits n Hn (length d) d (Nat.le_refl _))) as C.
  destruct (served_ok (chop (length d) n d)) as (E1 & E2).
  { destruct C as (_ & F & _). eapply Forall_impl; [|exact F]. intros b Hb. apply Hb. }
  unfold file_reader. rewrite E1, E2. auto.
Qed.
Lemma full_content rd d : full_reads rd d -> content rd d.
Proof. intros F n Hn. apply (F n Hn). Qed.
(* one byte at a time, as a slow pipe may give them; and one that breaks *)
Definition drip (d : bytes) : reader := fun _ => map (fun b => Ok [b]) d.
Lemma drip_content d : content (drip d) d.
Proof. intros n _. unfold drip. induction d as [|b d IH]; [reflexivity|]. cbn [map served concat app]. now rewrite IH. Qed.
Definition ex_nums (q : res (list cmeta * Z) * sst) : option exn * list Z * Z * Z * list (option Z) :=
  let fc p := match p_body p with BCO c => co_fcid c | _ => None end in
  match q with
  | (Ok (m, t), s) => (None, map cm_num m, t, ss_next s, map fc (ss_out s))
  | (Err e, s) => (Some e, [], zlen (ss_out s), ss_next s, map fc (ss_out s))
  end.
Definition ex_data (ty : stype) : impl := match nctx_create toy (ex_opts ty 300) 1 with Ok x => nx_data x | Err _ => mkImpl 0 (SHash None None) end.
Example C80_chunks_ex :
  ex_nums (stream_data toy (ex_opts Segmented 300) (ex_data Segmented) (drip [10; 20; 30]) (mkSst [] 4)) =
    (None, [4; 5; 6], 3, 7, [None; None; Some 6]) /\
  (* the second read raises: the byte of the first is lost, its number used up *)
  ex_nums (stream_data toy (ex_opts Segmented 300) (ex_data Segmented) (fun _ => [Ok [10]; Err RuntimeError]) (mkSst [] 4)) =
    (Some RuntimeError, [], 0, 5, []) /\
  ex_nums (stream_data toy (ex_opts Hashed 300) (ex_data Hashed) (drip [10; 20; 30]) (mkSst [] (MAX_CHUNK_ID - 1))) =
    (Some ValueError, [], 2, MAX_CHUNK_ID + 2, [None; None]) /\
  (* more than was asked for *)
  ex_nums (stream_data toy (ex_opts Hashed 300) (ex_data Hashed) (fun _ => [Ok [1]; Ok (repeat 2 400)]) (mkSst [] 0)) =
    (Some ValueError, [], 1, 2, [None]).
Proof. vm_compute. repeat split. Qed.
(* builds from a dripping stream with a context that has numbered 4 chunks, read
   back from a memory store *)
Definition ex_ctx (o : opts toy) (z : Z) : option live := match nctx_create toy o 1 with Ok x => Some (mkLive x z) | Err _ => None end.
Lemma ex_ctx_known o z : 0 <= z -> known_context o 1 (ex_ctx o z).
Proof. intros H. unfold ex_ctx, known_context. destruct (nctx_create toy o 1); [split; [reflexivity|exact H]|exact I]. Qed.
Definition ex_drip (o : opts toy) (ks : option (keystore toy)) (z : Z) (data : bytes) : option exn * bool * Z * Z * bool :=
  match tree_from toy exact_log (ex_nonce o) (mkFl 0 0) o 1 (FromReader (drip data)) (mkWst (mkMst [] 0) (ex_ctx o z)) with
  | (Err e, _) => (Some e, false, 0, 0, false)
  | (Ok root, s) =>
    match foldM (mem_put toy) mem_new (ms_out (w_mst s)), packet_hash (pr_sha toy) root with
    | Ok m, Ok h =>
      let '(r, t) := traverse toy (mem_get (me_hash m)) true (length (ms_out (w_mst s))) (op_name o) (Some h) (tst_new toy ks) in
      (match r with Ok _ => None | Err e => Some e end, beqb (concat (ts_out t)) data, ts_count t, next_of (w_ctx s),
       ex_same (ms_out (w_mst s)) (ms_out (w_mst s)))
    | _, _ => (None, false, 0, 0, false)
    end
  end.
Example C80_build_ex :
  (forall d, full_reads (file_reader d) d /\ content (drip d) d) /\ (forall o z, 0 <= z -> known_context (P := toy) o 1 (ex_ctx o z)) /\
  ex_drip (ex_secret Hashed 400) (Some ex_store) 4 [1; 2; 3; 4; 5] = (None, true, 7, 9, true) /\
  ex_drip (ex_secret Segmented 290) (Some ex_store) 4 [1; 2; 3; 4; 5; 6] = (None, true, 10, 10, true).
Proof.
  split; [intros d; split; [apply file_reader_full|apply drip_content]|]. split; [exact ex_ctx_known|]. split; vm_compute; reflexivity.
Qed.
(* two streams and one context: numbers 0 to 4 for the data, two manifests with
   the same name *)
Definition ex_two (o : opts toy) : option (list Z * Z * bool) :=
  match build_all toy exact_log (ex_nonce o) (mkFl 0 0) o 1 [drip [1; 2; 3]; drip [4; 5]] (mkWst (mkMst [] 0) None) with
  | ([Ok _; Ok _], s) =>
      let names := map body_name (filter (fun p => negb (data_objectb p)) (ms_out (w_mst s))) in
      let last n := match n with Some l => match rev l with c :: _ => c_val c | [] => [] end | None => [] end in
      Some (concat (map last (data_names (ms_out (w_mst s)))), next_of (w_ctx s),
            match names with a :: _ :: b :: _ => match a, b with Some a, Some b => beqb (last (Some a)) (last (Some b)) | _, _ => false end | _ => false end)
  | _ => None
  end.
(* a stream that breaks between two others: numbers 1 and 2 are taken for it, and
   only 1 is put *)
Definition ex_three (o : opts toy) : option (list Z * Z) :=
  match build_all toy exact_log (ex_nonce o) (mkFl 0 0) o 1 [drip [1]; fun _ => [Ok [2]; Ok [3]; Err RuntimeError]; drip [4; 5]] (mkWst (mkMst [] 0) None) with
  | ([Ok _; Err RuntimeError; Ok _], s) =>
      let last n := match n with Some l => match rev l with c :: _ => c_val c | [] => [] end | None => [] end in
      Some (concat (map last (data_names (ms_out (w_mst s)))), next_of (w_ctx s))
  | _ => None
  end.
Example C80_sequence_ex : ex_two (ex_opts Segmented 400) = Some ([0; 1; 2; 3; 4], 5, true) /\
  ex_three (ex_opts Segmented 400) = Some ([0; 1; 3; 4], 5).
Proof. split; vm_compute; reflexivity. Qed.
(* where the names of manifests repeat: one chunk in each stream *)
Definition ex_stream_shape (o : opts toy) (d : bytes) (k : nat) : option (Z * Z) :=
  match nctx_create toy o 1 with
  | Ok x => match payload_size toy o (nx_data x) with
    | Ok ps => let n := zlen (served (drip d ps)) in
        match tree_params toy exact_log (ex_nonce o) (mkFl 0 0) o x n (zlen d) k with
        | (Ok r, _) => Some (n, or_m r)
        | _ => None
        end
    | Err _ => None
    end
  | Err _ => None
  end.
Lemma ex_stream_shape_ok o d k n m : ex_stream_shape o d k = Some (n, m) ->
  exists r, stream_parameters toy exact_log (ex_nonce o) (mkFl 0 0) o 1 (drip d) d k n r /\ or_m r = m.
Proof.
  unfold ex_stream_shape. destruct (nctx_create toy o 1) as [x|] eqn:E1; [|discriminate].
  destruct (payload_size toy o (nx_data x)) as [ps|] eqn:E2; [|discriminate].
  destruct (tree_params _ _ _ _ _ _ _ _ _) as [[r|e] k'] eqn:E3; [|discriminate].
  intros [= <- <-]. exists r. split; [|reflexivity]. exists x, ps, k'. split; [exact E1|]. split; [exact E2|]. split; [reflexivity|exact E3].
Qed.
Example C80_manifest_names_ex : ex_stream_shape (ex_opts Segmented 400) [7] 0 = Some (1, 1) /\
  ex_stream_shape (ex_secret Segmented 290) [1; 2; 3; 4; 5; 6] 0 = Some (6, 2) /\
  match build_all toy exact_log (ex_nonce (ex_opts Segmented 400)) (mkFl 0 0) (ex_opts Segmented 400) 1 [drip [7]; drip [8]] (mkWst (mkMst [] 0) None) with
  | ([Ok _; Ok _], s) => (next_of (w_ctx s), ms_nonce (w_mst s)) = (2, 0%nat)
  | _ => False
  end.
Proof. split; [vm_compute; reflexivity|]. split; [vm_compute; reflexivity|]. vm_compute. reflexivity. Qed.
Print Assumptions C80_chunks.
Print Assumptions C80_stops.
Print Assumptions C80_file.
Print Assumptions C80_file_build.
Print Assumptions C80_two_steps.
Print Assumptions C80_no_dangling.
Print Assumptions C80_read_back.
Print Assumptions C80_segmented.
Print Assumptions C80_integrity.
Print Assumptions C80_protected.
Print Assumptions C80_numbers.
Print Assumptions C80_sequence.
Print Assumptions C80_manifest_names_refuted.
