(* C62: the optimizer's search for the least waste. *)
From Coq Require Import ZArith List Bool Lia ZifyBool Sorted.
From Verif Require Import Py Float TlvProofs Optimizer OptimizerProofs PropsOptimizer.
Import ListNotations.
Open Scope Z_scope.

(* A way to store n chunks with p pointers per manifest: m of them indirect.
   Without indirect pointers there is one manifest and it must hold all the
   chunks.  Otherwise k is the least number with enough room. *)
Definition way (n p d m k : Z) : Prop :=
  1 <= d /\ d + m = p /\
  ((m = 0 /\ k = 1 /\ n <= p) \/
   (1 <= m /\ n <= room_for k d m /\ forall k', n <= room_for k' d m -> k <= k')).
(* pointers it leaves unused *)
Definition unused (n d m k : Z) : Z := room_for k d m - n.

Lemma way_k_of n p m k : 2 <= p -> way n p (p - m) m k <-> 0 <= m < p /\ k_of n p m = Some k.
Proof.
  intros Hp. unfold way, k_of. split.
  - intros (D & _ & [(-> & -> & N)|(M & R & L)]).
    + split; [lia|]. cbn. replace (p <? n) with false by lia. reflexivity.
    + split; [lia|]. replace (m =? 0) with false by lia. f_equal.
      apply room_cdiv in R; [|lia|lia]. specialize (L (cdiv (n - p) (m * (p - 1)))).
      assert (n <= room_for (cdiv (n - p) (m * (p - 1))) (p - m) m) by (apply room_cdiv; lia).
      specialize (L H). lia.
  - intros [M K]. split; [lia|]. split; [lia|]. destruct (m =? 0) eqn:E.
    + left. destruct (p <? n) eqn:E2; [discriminate|]. injection K as <-. lia.
    + right. injection K as <-. split; [lia|]. split; [apply room_cdiv; lia|].
      intros k' R. apply room_cdiv in R; lia.
Qed.

Lemma zseq_sorted a n : StronglySorted Z.lt (zseq a n).
Proof.
  revert a. induction n as [|n IH]; intros a; cbn [zseq]; constructor; [apply IH|].
  apply Forall_forall. intros x Hx. apply zseq_in in Hx. lia.
Qed.
Lemma filter_sorted {A} (R : A -> A -> Prop) f l : StronglySorted R l -> StronglySorted R (filter f l).
Proof.
  induction 1 as [|x l S IH F]; cbn [filter]; [constructor|].
  destruct (f x); [|assumption]. constructor; [assumption|].
  apply Forall_forall. intros y Hy. apply filter_In in Hy. destruct Hy as [Hy _].
  rewrite Forall_forall in F. auto.
Qed.
Lemma map_map_id {A B} (f : A -> B) (g : B -> A) l : (forall x, g (f x) = x) -> map g (map f l) = l.
Proof. intros H. rewrite map_map. rewrite <- (map_id l) at 2. apply map_ext. auto. Qed.

(* the list returned, as a search *)
Definition w_res clog n p (m : Z) : optres :=
  res_of clog n p m (match k_of n p m with Some k => k | None => 0 end).
Definition w_val n p (m : Z) : option Z :=
  match k_of n p m with Some k => Some (calc_waste n k (p - m) m) | None => None end.
Lemma minimize_waste_search clog n p : 1 <= n < 2 ^ 52 -> 2 <= p < 2 ^ 52 ->
  exists b, minimize_waste clog n p
              = Ok (map (w_res clog n p) (filter (eq_val (w_val n p) b) (zrange 0 p))) /\
    (exists m, In m (zrange 0 p) /\ w_val n p m = Some b) /\
    (forall m k, In m (zrange 0 p) -> w_val n p m = Some k -> b <= k) /\
    forall m, In m (filter (eq_val (w_val n p) b) (zrange 0 p)) <-> 0 <= m < p /\ w_val n p m = Some b.
Proof.
  intros Hn Hp. unfold minimize_waste.
  rewrite (foldM_pure _ (pure_w clog n p))
    by (intros s x Hx; apply min_w_step_pure; [assumption|assumption|now apply zrange_in in Hx]).
  cbn [bind].
  rewrite (fold_left_ext (pure_w clog n p) (best_step (w_val n p) (w_res clog n p))).
  2:{ intros s m. unfold pure_w, best_step, w_res, w_val. now destruct (k_of n p m). }
  pose proof (best_search clog (w_val n p) (w_res clog n p) (zrange 0 p)) as B.
  set (s := fold_left _ _ _) in *. clearbody s.
  destruct s as [[b|] l]; unfold best_inv in B; cbn [fst snd] in *.
  2:{ exfalso. destruct B as [_ B]. specialize (B 1 ltac:(apply zrange_in; lia)).
      unfold w_val, k_of in B. discriminate. }
  destruct B as (El & V & M). exists b. split; [now rewrite El|]. split; [assumption|].
  split; [assumption|]. intros m. rewrite filter_In, zrange_in. unfold eq_val. split; intros [A C].
  - split; [assumption|]. destruct (w_val n p m); [|discriminate]. f_equal. lia.
  - rewrite C. rewrite Z.eqb_refl. auto.
Qed.

(* C62.  minimize_waste returns all the ways with the least number of unused
   pointers and no others, by increasing number of indirect pointers. *)
Theorem C62_least_waste clog n p : 1 <= n < 2 ^ 52 -> 2 <= p < 2 ^ 52 ->
  exists l, minimize_waste clog n p = Ok l /\ l <> [] /\
    StronglySorted Z.lt (map or_m l) /\
    (forall r, In r l -> or_n r = n /\ or_p r = p /\
       way n p (or_d r) (or_m r) (or_k r) /\
       or_w r = unused n (or_d r) (or_m r) (or_k r) /\
       n <= or_k r * or_d r + or_leaf r * p /\ 0 <= or_leaf r /\
       forall d m k, way n p d m k -> or_w r <= unused n d m k) /\
    (forall d m k, way n p d m k ->
       (forall d' m' k', way n p d' m' k' -> unused n d m k <= unused n d' m' k') ->
       exists r, In r l /\ or_d r = d /\ or_m r = m /\ or_k r = k).
Proof.
  intros Hn Hp. destruct (minimize_waste_search clog n p Hn Hp) as (b & E & (m0 & I0 & V0) & M & Hmem).
  set (val := w_val n p) in *. set (rs := w_res clog n p) in *.
  set (l := map rs _) in *. assert (El : l = map rs (filter (eq_val val b) (zrange 0 p))) by reflexivity.
  clearbody l.
  assert (W : forall d m k, way n p d m k -> 0 <= m < p /\ d = p - m /\ k_of n p m = Some k
            /\ val m = Some (unused n d m k)).
  { intros d m k Hw. assert (d = p - m) by (destruct Hw as (_ & S & _); lia). subst d.
    apply way_k_of in Hw; [|lia]. destruct Hw as [Hm Hk]. split; [assumption|]. split; [reflexivity|].
    split; [assumption|]. unfold val, w_val. rewrite Hk. unfold unused, calc_waste. now rewrite room_calc_n. }
  exists l. split; [assumption|]. split.
  { intros ->. assert (I : In m0 (filter (eq_val val b) (zrange 0 p))).
    { apply Hmem. split; [now apply zrange_in|assumption]. }
    apply (in_map rs) in I. rewrite <- El in I. destruct I. }
  split.
  { rewrite El. rewrite map_map_id by reflexivity. apply filter_sorted, zseq_sorted. }
  split.
  - intros r Ir. rewrite El in Ir. apply in_map_iff in Ir. destruct Ir as (m & <- & Im).
    apply Hmem in Im. destruct Im as [Rm Vm]. unfold val, w_val in Vm.
    destruct (k_of n p m) as [k|] eqn:Ek; [|discriminate]. injection Vm as Vm.
    unfold rs, w_res. rewrite Ek. unfold res_of. cbn [or_n or_p or_d or_m or_k or_w or_leaf].
    split; [reflexivity|]. split; [reflexivity|]. split; [apply way_k_of; [lia|]; auto|].
    split. { unfold unused, calc_waste. now rewrite room_calc_n. }
    split. { pose proof (leaf_of_cap clog n p Hp (p - m) k). lia. }
    split. { now apply (leaf_of_nonneg clog). }
    intros d' m' k' Hw. apply W in Hw. destruct Hw as (A & _ & _ & D).
    rewrite Vm. apply (M m'); [now apply zrange_in|assumption].
  - intros d m k Hw Hmin. destruct (W _ _ _ Hw) as (A & -> & Ck & D).
    exists (rs m). split.
    + rewrite El. apply in_map. apply Hmem. split; [assumption|]. rewrite D. f_equal.
      apply Z.le_antisymm; [|apply (M m); [now apply zrange_in|assumption]].
      apply zrange_in in I0. unfold val, w_val in V0. destruct (k_of n p m0) as [k0|] eqn:E0; [|discriminate].
      assert (way n p (p - m0) m0 k0) as H0 by (apply way_k_of; [lia|auto]).
      specialize (Hmin _ _ _ H0). apply W in H0. destruct H0 as (_ & _ & _ & D0).
      unfold val, w_val in D0. rewrite E0 in D0. congruence.
    + unfold rs, w_res. rewrite Ck. unfold res_of. cbn [or_d or_m or_k]. auto.
Qed.
Print Assumptions C62_least_waste.

(* 10 chunks, 4 pointers: two ways with nothing unused *)
Example C62_least_waste_ex : match minimize_waste exact_log 10 4 with
  | Ok l => map (fun r => (or_d r, or_m r, or_k r, or_w r, or_height r)) l
            = [(3, 1, 2, 0, 3); (2, 2, 1, 0, 1)]
  | Err _ => False
  end.
Proof. vm_compute. reflexivity. Qed.

(* the first of least height *)
Lemma least_height_spec l : forall best,
  match fold_left least_height l best with
  | None => best = None /\ forall x, In x l -> 0xFFFFFFFF <= or_height x
  | Some r =>
      (best = Some r /\ forall x, In x l -> or_height r <= or_height x) \/
      (exists l1 l2, l = l1 ++ r :: l2 /\ or_height r < match best with None => 0xFFFFFFFF | Some b => or_height b end /\
         (forall x, In x l1 -> or_height r < or_height x) /\
         (forall x, In x l2 -> or_height r <= or_height x))
  end.
Proof.
  induction l as [|y l IH]; intros best; cbn [fold_left].
  - destruct best as [b|].
    + left. split; [reflexivity|]. intros x [].
    + split; [reflexivity|]. intros x [].
  - specialize (IH (least_height best y)).
    set (t := match best with None => 0xFFFFFFFF | Some b => or_height b end) in *.
    assert (LB : least_height best y = if or_height y <? t then Some y else best) by reflexivity.
    destruct (fold_left least_height l (least_height best y)) as [r|]; rewrite LB in IH;
      destruct (or_height y <? t) eqn:Y.
    + right. destruct IH as [[E H]|(l1 & l2 & E & A & B & C)].
      * injection E as ->. exists [], l. split; [reflexivity|]. split; [lia|].
        split; [intros x []|assumption].
      * exists (y :: l1), l2. split; [now rewrite E|]. split; [lia|]. split; [|assumption].
        intros x [<-|I]; auto.
    + destruct IH as [[E H]|(l1 & l2 & E & A & B & C)].
      * left. split; [assumption|]. intros x [<-|I]; [|auto]. unfold t in Y. rewrite E in Y. lia.
      * right. exists (y :: l1), l2. split; [now rewrite E|]. fold t in A. split; [assumption|].
        split; [|assumption]. intros x [<-|I]; [lia|auto].
    + destruct IH as [E _]. discriminate.
    + destruct IH as [E H]. split; [assumption|]. intros x [<-|I]; [|auto]. unfold t in Y. rewrite E in Y. lia.
Qed.

(* minimize_waste_min_height takes the first of least height among them.  It
   fails when all the heights are at or beyond 2^32 - 1. *)
Theorem C62_min_height clog n p : 1 <= n < 2 ^ 52 -> 2 <= p < 2 ^ 52 ->
  exists l, minimize_waste clog n p = Ok l /\
    ((exists r l1 l2, minimize_waste_min_height clog n p = Ok r /\ l = l1 ++ r :: l2 /\
        (forall x, In x l1 -> or_height r < or_height x) /\
        (forall x, In x l2 -> or_height r <= or_height x)) \/
     (minimize_waste_min_height clog n p = Err AssertionError /\
        forall x, In x l -> 2 ^ 32 - 1 <= or_height x)).
Proof.
  intros Hn Hp. destruct (C62_least_waste clog n p Hn Hp) as (l & E & _).
  exists l. split; [assumption|]. unfold minimize_waste_min_height. rewrite E. cbn [bind].
  pose proof (least_height_spec l None) as H.
  destruct (fold_left least_height l None) as [r|].
  - left. destruct H as [[H _]|(l1 & l2 & El & _ & A & B)]; [discriminate|].
    exists r, l1, l2. auto.
  - right. split; [reflexivity|]. intros x I. destruct H as [_ H]. specialize (H x I). lia.
Qed.
Print Assumptions C62_min_height.

Example C62_min_height_ex : match minimize_waste_min_height exact_log 10 4 with
  | Ok r => or_m r = 2 /\ or_height r = 1 | Err _ => False end.
Proof. vm_compute. auto. Qed.

Lemma height_small clog n p m k : log_ok clog -> 1 <= n < 2 ^ 32 - 1 -> 2 <= p <= 2 ^ 20 ->
  0 <= m < p -> k_of n p m = Some k -> or_height (res_of clog n p m k) < 2 ^ 32 - 1.
Proof.
  intros Lok Hn Hp Hm Hk. destruct (Z.eq_dec m 0) as [->|M0].
  - unfold res_of. cbn [or_height]. unfold height_of. cbn [Z.eqb].
    rewrite Z.sub_0_r. destruct (clog_exists p n ltac:(lia) ltac:(lia)) as (e & E0 & E1 & E2).
    pose proof (Lok n p 0 e ltac:(lia) ltac:(lia) E0 ltac:(lia) E1 E2) as B.
    destruct E2 as [->|E2]; [lia|].
    destruct (Z.eq_dec e 0) as [->|NE]; [lia|].
    destruct (Z.eq_dec e 1) as [->|NE1]; [lia|].
    pose proof (Z.pow_gt_lin_r p (e - 1) ltac:(lia) ltac:(lia)). lia.
  - unfold k_of in Hk. replace (m =? 0) with false in Hk by lia. injection Hk as <-.
    change (or_height _) with (opt_height n p m clog).
    destruct (height_exists n (p - m) m ltac:(lia) ltac:(lia)) as [L HL].
    destruct (opt_height_ok n p m ltac:(lia) ltac:(lia) ltac:(lia) clog L Lok HL) as (_ & H2 & _ & H4).
    destruct (Z.eq_dec m 1) as [M1|M1]; [specialize (H4 M1); lia|].
    destruct (H2 ltac:(lia)) as [H3 _]. destruct L as [|L]; [lia|].
    destruct HL as [_ HL]. specialize (HL L ltac:(lia)). rewrite capacity_full in HL.
    replace (p - m + m) with p in HL by lia.
    pose proof (full_ge m L ltac:(lia)) as F. assert (2 <= m * (p - 1)) by nia. nia.
Qed.

(* Up to 2^32 - 2 chunks there is always a result. *)
Theorem C62_min_height_total clog n p : log_ok clog -> 1 <= n < 2 ^ 32 - 1 -> 2 <= p <= 2 ^ 20 ->
  exists l r, minimize_waste clog n p = Ok l /\ minimize_waste_min_height clog n p = Ok r /\ In r l /\
    forall x, In x l -> or_height r <= or_height x.
Proof.
  intros Lok Hn Hp.
  destruct (C62_least_waste clog n p ltac:(lia) ltac:(lia)) as (l & E & N & _ & R & _).
  destruct (C62_min_height clog n p ltac:(lia) ltac:(lia)) as (l' & E' & [(r & l1 & l2 & F & El & A & B)|[F H]]);
    rewrite E in E'; apply Ok_inj in E'; subst l'.
  - exists l, r. split; [assumption|]. split; [assumption|]. rewrite El. split; [apply in_elt|].
    intros x I. apply in_app_or in I. destruct I as [I|[<-|I]]; [specialize (A x I); lia|lia|auto].
  - exfalso. destruct l as [|x l]; [now apply N|]. specialize (H x (or_introl eq_refl)).
    destruct (minimize_waste_search clog n p ltac:(lia) ltac:(lia)) as (b & E2 & _ & _ & Hmem).
    rewrite E in E2. apply Ok_inj in E2.
    assert (I : In x (x :: l)) by now left. rewrite E2 in I. apply in_map_iff in I.
    destruct I as (m & <- & Im). apply Hmem in Im. destruct Im as [Hm Hv].
    unfold w_val in Hv. unfold w_res in H. destruct (k_of n p m) as [k|] eqn:Hk; [|discriminate].
    pose proof (height_small clog n p m k Lok Hn Hp Hm Hk). lia.
Qed.
Print Assumptions C62_min_height_total.

(* 3 chunks, 2 pointers *)
Example C62_min_height_total_ex : log_ok exact_log /\ 1 <= 3 < 2 ^ 32 - 1 /\ 2 <= 2 <= 2 ^ 20 /\
  match minimize_waste_min_height exact_log 3 2 with
  | Ok r => or_m r = 1 /\ or_k r = 1 /\ or_w r = 0 | Err _ => False end.
Proof. split; [apply log_exact_ok, exact_log_exact|]. split; [lia|]. split; [lia|]. vm_compute. auto. Qed.

(* Beyond that the search can find nothing: with two pointers per manifest the
   tree is a chain, whose height reaches the initial bound 0xFFFFFFFF. *)
Theorem C62_chain_refuted : minimize_waste_min_height exact_log (2 ^ 33) 2 = Err AssertionError /\
  exists r, minimize_waste exact_log (2 ^ 33) 2 = Ok [r] /\ or_w r = 0.
Proof. split; [vm_compute; reflexivity|]. eexists. split; [vm_compute; reflexivity|reflexivity]. Qed.
Print Assumptions C62_chain_refuted.

(* One chunk: the least waste is reached by "minus one" interior manifests. *)
Theorem C62_one_chunk clog p : 2 <= p < 2 ^ 52 ->
  exists l, minimize_waste clog 1 p = Ok l /\ map or_k l = [-1] /\ map or_m l = [1] /\ map or_w l = [0].
Proof.
  intros Hp. destruct (C62_least_waste clog 1 p ltac:(lia) Hp) as (l & E & N & S & R & _).
  assert (W : way 1 p (p - 1) 1 (-1)).
  { split; [lia|]. split; [lia|]. right. split; [lia|]. unfold room_for. split; [lia|].
    intros k'. nia. }
  assert (A : forall r, In r l -> or_m r = 1 /\ or_k r = -1 /\ or_w r = 0).
  { intros r I. destruct (R r I) as (_ & _ & Hw & U & _ & _ & L). specialize (L _ _ _ W).
    assert (U1 : unused 1 (p - 1) 1 (-1) = 0) by (unfold unused, room_for; lia).
    rewrite U1 in L. rewrite U in *. unfold unused, room_for in *.
    destruct Hw as (D & DM & [(M & K & _)|(M & K & _)]).
    - rewrite M, K in *. lia.
    - unfold room_for in K.
      set (m := or_m r) in *. set (k := or_k r) in *. set (d := or_d r) in *. clearbody m k d.
      assert (Q : k * d + (k * m - (k - 1)) * (d + m) - 1 = (p - 1) * (k * m + 1))
        by (replace d with (p - m) by lia; ring).
      assert (Q0 : 0 <= (p - 1) * (k * m + 1)) by (rewrite <- Q; clear - K; lia).
      rewrite Q in *. assert (Q1 : (p - 1) * (k * m + 1) = 0) by (clear - L Q0; lia).
      assert (KM : k * m = -1) by (clear - Q1 Hp; nia). assert (M1 : m = 1) by (clear - KM M; assert (k <= -1) by nia; nia).
      split; [assumption|]. split; [clear - KM M1; nia|assumption]. }
  exists l. split; [assumption|]. destruct l as [|r [|r' l]]; [now elim N| |].
  - destruct (A r (or_introl eq_refl)) as (B1 & B & C). cbn [map]. rewrite B, C, B1. auto.
  - exfalso. cbn [map] in S. inversion S as [|? ? _ F]. inversion F as [|? ? G _].
    destruct (A r (or_introl eq_refl)) as (B & _).
    destruct (A r' (or_intror (or_introl eq_refl))) as (B' & _). lia.
Qed.
Print Assumptions C62_one_chunk.

Example C62_one_chunk_ex : match minimize_waste exact_log 1 40 with
  | Ok l => map or_k l = [-1] | Err _ => False end.
Proof. vm_compute. reflexivity. Qed.
