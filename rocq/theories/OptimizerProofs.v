(* Facts about the optimizer: exactness of its float divisions, the loops as
   searches for a minimum, the id generator. *)
From Coq Require Import ZArith List Bool Lia ZifyBool.
From Verif Require Import Py Float Optimizer TlvProofs FloatProofs.
Import ListNotations.
Open Scope Z_scope.
Ltac Zify.zify_post_hook ::= Z.div_mod_to_equations.

(* ---------------- ranges ---------------- *)

Lemma zseq_in a n x : In x (zseq a n) <-> a <= x < a + Z.of_nat n.
Proof.
  revert a. induction n as [|n IH]; intros a; cbn [zseq In]; [lia|].
  rewrite IH. lia.
Qed.
Lemma zrange_in a b x : In x (zrange a b) <-> a <= x < b.
Proof. unfold zrange. rewrite zseq_in. lia. Qed.
Lemma zseq_length a n : length (zseq a n) = n.
Proof. revert a; induction n; intros; cbn; [reflexivity|now rewrite IHn]. Qed.
Lemma zseq_app a n k : zseq a (n + k) = zseq a n ++ zseq (a + Z.of_nat n) k.
Proof.
  revert a. induction n as [|n IH]; intros a; cbn [zseq Nat.add app].
  - f_equal; lia.
  - rewrite IH. f_equal. f_equal. f_equal. lia.
Qed.
Lemma zrange_app a b c : a <= b <= c -> zrange a c = zrange a b ++ zrange b c.
Proof.
  intros. unfold zrange. replace (Z.to_nat (c - a)) with (Z.to_nat (b - a) + Z.to_nat (c - b))%nat by lia.
  rewrite zseq_app. do 2 f_equal. lia.
Qed.
Lemma zrange_nil a b : b <= a -> zrange a b = [].
Proof. intros. unfold zrange. now replace (Z.to_nat (b - a)) with O by lia. Qed.
Lemma zrange_cons a b : a < b -> zrange a b = a :: zrange (a + 1) b.
Proof.
  intros. unfold zrange. replace (Z.to_nat (b - a)) with (S (Z.to_nat (b - (a + 1)))) by lia.
  reflexivity.
Qed.
Lemma zrange_snoc a b : a < b -> zrange a b = zrange a (b - 1) ++ [b - 1].
Proof.
  intros. rewrite (zrange_app a (b - 1) b) by lia. f_equal.
  rewrite zrange_cons by lia. now rewrite zrange_nil by lia.
Qed.
Lemma zrange_zlen a b : a <= b -> zlen (zrange a b) = b - a.
Proof. intros. unfold zlen, zrange. rewrite zseq_length. lia. Qed.
Lemma zseq_nth a n i d : (i < n)%nat -> nth i (zseq a n) d = a + Z.of_nat i.
Proof.
  revert a i. induction n as [|n IH]; intros a i H; [lia|].
  destruct i; cbn [zseq nth]; [lia|]. rewrite IH by lia. lia.
Qed.
Lemma zseq_nodup a n : NoDup (zseq a n).
Proof.
  revert a. induction n as [|n IH]; intros a; cbn [zseq]; constructor; auto.
  rewrite zseq_in. lia.
Qed.
Lemma zrange_nodup a b : NoDup (zrange a b).
Proof. apply zseq_nodup. Qed.

(* ---------------- float quotients ---------------- *)

(* what the float quotient of a small numerator looks like *)
Lemma round_small a b : 0 < a < 2 ^ 53 -> 0 < b ->
  exists q s, 0 < s /\ fl_num (fl_round a b) = q /\ fl_den (fl_round a b) = s /\
    - b <= 2 * (q * b - a * s) <= b /\ b < 2 * s /\ 0 <= q.
Proof.
  intros [Ha Ha'] Hb. unfold fl_round. replace (a =? 0) with false by lia.
  pose proof (fl_exp_spec a b Ha Hb) as E. cbn zeta in E.
  set (e := fl_exp a b) in *. clearbody e.
  assert (He : e <= 0).
  { destruct (Z.le_gt_cases e 0); [assumption|exfalso].
    replace (Z.max 0 (- e)) with 0 in E by lia. replace (Z.max 0 e) with e in E by lia.
    assert (2 ^ 1 <= 2 ^ e) by (apply Z.pow_le_mono_r; lia).
    change (2 ^ 0) with 1 in E. change (2 ^ 1) with 2 in *.
    change (2 ^ 53) with (2 * 2 ^ 52) in *. set (k := 2 ^ 52) in *. set (E' := 2 ^ e) in *.
    clearbody E'. assert (0 < k) by reflexivity. clearbody k.
    assert (b * 2 * k <= b * E' * k) by nia. nia. }
  unfold fl_num, fl_den; cbn [fm fe].
  replace (Z.max 0 e) with 0 in * by lia. replace (Z.max 0 (- e)) with (- e) in * by lia.
  change (2 ^ 0) with 1 in *. rewrite !Z.mul_1_r in *.
  pose proof (rne_bound (a * 2 ^ - e) b Hb) as R.
  exists (rne (a * 2 ^ - e) b), (2 ^ - e).
  pose proof (pow2_pos (- e) ltac:(lia)).
  split; [assumption|]. split; [reflexivity|]. split; [reflexivity|].
  set (q := rne _ _) in *. set (s := 2 ^ - e) in *. clearbody q s.
  split; [assumption|].
  assert (b < 2 * s).
  { change (2 ^ 53) with (2 * 2 ^ 52) in *. set (k := 2 ^ 52) in *.
    assert (0 < k) by reflexivity. clearbody k. nia. }
  split; [assumption|].
  destruct (Z.le_gt_cases 0 q); [assumption|nia].
Qed.

Lemma round_finite a b : 0 <= a < 2 ^ 53 -> 0 < b -> fl_finite (fl_round a b) = true.
Proof.
  intros Ha Hb. destruct (Z.eq_dec a 0) as [->|N].
  - reflexivity.
  - destruct (round_small a b ltac:(lia) Hb) as (q & s & Hs & En & Ed & R & S & Q).
    unfold fl_finite. rewrite En, Ed. apply Z.ltb_lt.
    apply Z.lt_le_trans with (2 ^ 54 * s).
    + change (2 ^ 54) with (2 * 2 ^ 53). set (k := 2 ^ 53) in *. clearbody k. nia.
    + apply Z.mul_le_mono_nonneg_r; [lia|]. apply Z.pow_le_mono_r; lia.
Qed.

Lemma round_trunc a b : 0 <= a < 2 ^ 53 -> 0 < b -> fl_trunc (fl_round a b) = a / b.
Proof.
  intros Ha Hb. destruct (Z.eq_dec a 0) as [->|N].
  - reflexivity.
  - destruct (round_small a b ltac:(lia) Hb) as (q & s & Hs & En & Ed & R & S & Q).
    unfold fl_trunc. rewrite En, Ed. clear En Ed.
    assert (q / s * s <= q < (q / s + 1) * s) by nia.
    set (t := q / s) in *. clearbody t.
    assert (t * b <= a).
    { destruct (Z.le_gt_cases (t * b) a); [assumption|nia]. }
    assert (a < (t + 1) * b).
    { destruct (Z.lt_ge_cases a ((t + 1) * b)); [assumption|nia]. }
    apply (Z.div_unique_pos a b t (a - b * t)); lia.
Qed.

Definition cdiv (a b : Z) : Z := - ((- a) / b).
Lemma cdiv_spec a b : 0 < b -> a <= cdiv a b * b < a + b.
Proof. intros. unfold cdiv. nia. Qed.
Lemma cdiv_least a b q : 0 < b -> a <= q * b -> cdiv a b <= q.
Proof. intros Hb H. pose proof (cdiv_spec a b Hb). destruct (Z.le_gt_cases (cdiv a b) q); [assumption|nia]. Qed.
Lemma cdiv_unique a b q : 0 < b -> a <= q * b < a + b -> cdiv a b = q.
Proof.
  intros Hb H. pose proof (cdiv_spec a b Hb).
  destruct (Z.lt_trichotomy (cdiv a b) q) as [L|[L|L]]; [nia|assumption|nia].
Qed.

Lemma round_ceil a b : 0 <= a < 2 ^ 53 -> 0 < b -> fl_ceil (fl_round a b) = cdiv a b.
Proof.
  intros Ha Hb. destruct (Z.eq_dec a 0) as [->|N].
  - reflexivity.
  - destruct (round_small a b ltac:(lia) Hb) as (q & s & Hs & En & Ed & R & S & Q).
    unfold fl_ceil. rewrite En, Ed. clear En Ed. symmetry.
    fold (cdiv q s). pose proof (cdiv_spec q s Hs) as C. set (t := cdiv q s) in *. clearbody t.
    apply cdiv_unique; [assumption|]. split.
    + destruct (Z.le_gt_cases a (t * b)); [assumption|nia].
    + destruct (Z.lt_ge_cases (t * b) (a + b)); [assumption|nia].
Qed.

(* math.ceil(a / b) is exact for numerators that a float holds *)
Lemma ceil_div_exact a b : Z.abs a < 2 ^ 53 -> 0 < b -> ceil_div a b = Ok (cdiv a b).
Proof.
  intros Ha Hb. unfold ceil_div, int_truediv. replace (b =? 0) with false by lia. cbv zeta.
  rewrite round_finite by lia. f_equal.
  destruct (a <? 0) eqn:E.
  - rewrite round_trunc by lia. unfold cdiv. now replace (Z.abs a) with (- a) by lia.
  - rewrite round_ceil by lia. now replace (Z.abs a) with a by lia.
Qed.

Lemma round_exact Q b : 0 <= Q < 2 ^ 53 -> 0 < b ->
  exists s, 0 < s /\ fl_num (fl_round (Q * b) b) = Q * s /\ fl_den (fl_round (Q * b) b) = s.
Proof.
  intros HQ Hb. destruct (Z.eq_dec Q 0) as [->|N].
  - exists 1. cbn. lia.
  - unfold fl_round. replace (Q * b =? 0) with false by nia.
    pose proof (fl_exp_spec (Q * b) b ltac:(nia) Hb) as E. cbn zeta in E.
    set (e := fl_exp (Q * b) b) in *. clearbody e.
    assert (He : e <= 0).
    { destruct (Z.le_gt_cases e 0); [assumption|exfalso].
      replace (Z.max 0 (- e)) with 0 in E by lia. replace (Z.max 0 e) with e in E by lia.
      assert (2 ^ 1 <= 2 ^ e) by (apply Z.pow_le_mono_r; lia).
      change (2 ^ 0) with 1 in E. change (2 ^ 1) with 2 in *.
      change (2 ^ 53) with (2 * 2 ^ 52) in *. set (k := 2 ^ 52) in *. set (E' := 2 ^ e) in *.
      clearbody E'. assert (0 < k) by reflexivity. clearbody k.
      assert (b * 2 * k <= b * E' * k) by nia. nia. }
    unfold fl_num, fl_den; cbn [fm fe].
    replace (Z.max 0 e) with 0 in * by lia. replace (Z.max 0 (- e)) with (- e) in * by lia.
    change (2 ^ 0) with 1. rewrite !Z.mul_1_r. exists (2 ^ - e).
    split; [apply pow2_pos; lia|]. split; [|reflexivity].
    replace (Q * b * 2 ^ (- e)) with (Q * 2 ^ (- e) * b) by (set (t := 2 ^ (- e)); lia). now apply rne_exact.
Qed.

Lemma quot_minus_1_exact Q b : 1 <= Q < 2 ^ 53 -> 0 < b -> quot_minus_1 (Q * b) b = Ok (Q - 1).
Proof.
  intros HQ Hb. destruct (round_exact Q b ltac:(lia) Hb) as (s & Hs & En & Ed).
  unfold quot_minus_1, int_truediv, fl_finite. rewrite En, Ed.
  replace (Q * s <? 2 ^ 1024 * s) with true.
  2:{ symmetry. apply Z.ltb_lt. apply Z.mul_lt_mono_pos_r; [assumption|].
      apply Z.lt_trans with (2 ^ 53); [lia|]. apply Z.pow_lt_mono_r; lia. }
  replace (Q * s - s) with ((Q - 1) * s) by ring.
  destruct (round_exact (Q - 1) s ltac:(lia) Hs) as (s' & Hs' & En' & Ed').
  unfold fl_trunc. rewrite En', Ed'. now rewrite Z.div_mul by lia.
Qed.

(* ---------------- the number of nodes of a full tree ---------------- *)

(* nodes of a full m-ary tree with n levels *)
Fixpoint full (m : Z) (n : nat) : Z :=
  match n with O => 0 | S n' => 1 + m * full m n' end.

Lemma full_nonneg m n : 0 <= m -> 0 <= full m n.
Proof. induction n; cbn [full]; nia. Qed.
Lemma full_pow m n : (m - 1) * full m n = m ^ Z.of_nat n - 1.
Proof.
  induction n as [|n IH]; cbn [full].
  - change (m ^ Z.of_nat 0) with 1. lia.
  - rewrite Nat2Z.inj_succ, Z.pow_succ_r by lia.
    replace ((m - 1) * (1 + m * full m n)) with (m - 1 + m * ((m - 1) * full m n)) by ring.
    rewrite IH. set (t := m ^ Z.of_nat n). lia.
Qed.
Lemma full_1 n : full 1 n = Z.of_nat n.
Proof. induction n; cbn [full]; lia. Qed.
Lemma full_mono m n k : 1 <= m -> (n <= k)%nat -> full m n <= full m k.
Proof.
  intros Hm H. induction H; [lia|]. cbn [full]. pose proof (full_nonneg m m0 ltac:(lia)). nia.
Qed.
Lemma full_strict m n k : 1 <= m -> (n < k)%nat -> full m n < full m k.
Proof.
  intros Hm H. apply Z.lt_le_trans with (full m (S n)).
  - cbn [full]. pose proof (full_nonneg m n ltac:(lia)). nia.
  - now apply full_mono.
Qed.
Lemma full_ge m n : 1 <= m -> Z.of_nat n <= full m n.
Proof.
  intros Hm. induction n; cbn [full]; [lia|]. nia.
Qed.

Lemma last_id_exact m h : 1 <= m -> 0 <= h -> full m (Z.to_nat (h + 1)) < 2 ^ 53 ->
  last_id m h = Ok (full m (Z.to_nat (h + 1)) - 1).
Proof.
  intros Hm Hh B. unfold last_id. destruct (m =? 1) eqn:E.
  - replace m with 1 by lia. rewrite full_1. f_equal. lia.
  - replace (1 <? m) with true by lia. cbn [guard bind].
    replace (m ^ (h + 1) - 1) with (full m (Z.to_nat (h + 1)) * (m - 1)).
    + apply quot_minus_1_exact; [|lia]. split; [|assumption].
      pose proof (full_ge m (Z.to_nat (h + 1)) Hm). lia.
    + rewrite Z.mul_comm, full_pow. now replace (Z.of_nat (Z.to_nat (h + 1))) with (h + 1) by lia.
Qed.

Lemma mapM_ok {A B} (f : A -> res B) (g : A -> B) l :
  (forall x, In x l -> f x = Ok (g x)) -> mapM f l = Ok (map g l).
Proof.
  induction l as [|x l IH]; intros H; cbn [mapM map]; [reflexivity|].
  rewrite H by now left. cbn [bind]. rewrite IH by (intros; apply H; now right). reflexivity.
Qed.

Lemma id_factory_exact m h : 1 <= m -> 0 <= h -> full m (Z.to_nat (h + 1)) < 2 ^ 53 ->
  id_factory m h = Ok (map (fun i => full m (Z.to_nat (i + 1)) - 1) (zrange 0 (h + 1))).
Proof.
  intros Hm Hh B. unfold id_factory. apply mapM_ok. intros x Hx. apply zrange_in in Hx.
  apply last_id_exact; try lia.
  eapply Z.le_lt_trans; [|exact B]. apply full_mono; lia.
Qed.

(* ---------------- the optimizer's loop ---------------- *)

Section Search.
Variable clog : Z -> Z -> Z -> Z.
Variables n p : Z.
Hypothesis Hn : 1 <= n < 2 ^ 52.
Hypothesis Hp : 2 <= p < 2 ^ 52.

(* the values the loop computes for m *)
Definition k_of (m : Z) : option Z :=
  if m =? 0 then (if p <? n then None else Some 1) else Some (cdiv (n - p) (m * (p - 1))).
Definition leaf_of (d k : Z) : Z := if n - k * d <=? 0 then 0 else cdiv (n - k * d) p.
Definition height_of (d m total : Z) : Z :=
  if m =? 1 then total else if m =? 0 then clog n d 0 else clog ((m - 1) * total + 1) m 1.
Definition res_of (m k : Z) : optres :=
  let d := p - m in
  mkOR n p d m k (calc_waste n k d m) (leaf_of d k) (height_of d m (k + leaf_of d k)).

Lemma calc_k_of m : 0 <= m < p -> calc_k n (p - m) m = Ok (k_of m).
Proof.
  intros Hm. unfold calc_k, k_of. destruct (m =? 0) eqn:E.
  - now replace (p - m) with p by lia.
  - replace (n - (p - m) - m) with (n - p) by lia. replace (p - m + m - 1) with (p - 1) by lia.
    rewrite ceil_div_exact; [reflexivity| |nia].
    change (2 ^ 53) with (2 * 2 ^ 52). lia.
Qed.

(* k >= -1, and -1 only for n = 1, m = 1 *)
Lemma k_of_low m k : 0 <= m < p -> k_of m = Some k -> -1 <= k /\ (2 <= m -> 0 <= k) /\ (2 <= n -> 0 <= k).
Proof.
  intros Hm. unfold k_of. destruct (m =? 0) eqn:E.
  - destruct (p <? n); intros [= <-]. lia.
  - intros [= <-]. pose proof (cdiv_spec (n - p) (m * (p - 1)) ltac:(nia)) as C.
    set (t := cdiv _ _) in *. clearbody t.
    assert (-1 <= t) by (destruct (Z.le_gt_cases (-1) t); [assumption|nia]).
    split; [assumption|]. split.
    + intros. destruct (Z.le_gt_cases 0 t); [assumption|]. assert (t = -1) by lia. subst t. nia.
    + intros. destruct (Z.le_gt_cases 0 t); [assumption|]. assert (t = -1) by lia. subst t. nia.
Qed.

Lemma leaf_of_nonneg d k : 0 <= leaf_of d k.
Proof.
  unfold leaf_of. destruct (n - k * d <=? 0) eqn:E; [lia|].
  pose proof (cdiv_spec (n - k * d) p ltac:(lia)). nia.
Qed.
Lemma leaf_of_cap d k : n <= leaf_of d k * p + k * d.
Proof.
  unfold leaf_of. destruct (n - k * d <=? 0) eqn:E; [lia|].
  pose proof (cdiv_spec (n - k * d) p ltac:(lia)). lia.
Qed.
Lemma total_nonneg m k : 0 <= m < p -> k_of m = Some k -> 0 <= k + leaf_of (p - m) k.
Proof.
  intros Hm Hk. destruct (k_of_low m k Hm Hk) as (A & B & C).
  pose proof (leaf_of_nonneg (p - m) k). destruct (Z.eq_dec k (-1)) as [->|N]; [|lia].
  unfold leaf_of. replace (n - -1 * (p - m) <=? 0) with false by lia.
  pose proof (cdiv_spec (n - -1 * (p - m)) p ltac:(lia)) as D.
  set (t := cdiv _ _) in *. clearbody t.
  destruct (Z.le_gt_cases 1 t); [lia|nia].
Qed.

Lemma opt_result_of m k : 0 <= m < p -> k_of m = Some k ->
  opt_result clog n p (p - m) m k (calc_waste n k (p - m) m) = Ok (res_of m k).
Proof.
  intros Hm Hk. destruct (k_of_low m k Hm Hk) as (A & _ & _).
  pose proof (leaf_of_nonneg (p - m) k) as L. pose proof (leaf_of_cap (p - m) k) as C.
  pose proof (total_nonneg m k Hm Hk) as T.
  unfold opt_result, num_leaf.
  replace (if n - k * (p - m) <=? 0 then Ok 0 else ceil_div (n - k * (p - m)) p)
    with (Ok (leaf_of (p - m) k)).
  2:{ unfold leaf_of. destruct (n - k * (p - m) <=? 0) eqn:E; [reflexivity|].
      rewrite ceil_div_exact; [reflexivity| |lia].
      change (2 ^ 53) with (2 * 2 ^ 52). nia. }
  cbn [bind]. unfold tree_height, ceil_log, res_of, height_of. cbv zeta.
  set (lf := leaf_of (p - m) k) in *. clearbody lf.
  replace (p - m + m =? p) with true by lia.
  replace (n <=? lf * p + k * (p - m)) with true by lia.
  destruct (m =? 1) eqn:E1; [reflexivity|].
  destruct (m =? 0) eqn:E0.
  - replace ((n <=? 0) || (p - m <=? 0)) with false by lia. replace (p - m =? 1) with false by lia.
    reflexivity.
  - replace (((m - 1) * (k + lf) + 1 <=? 0) || (m <=? 0)) with false by nia.
    reflexivity.
Qed.

(* one turn without exceptions *)
Definition pure_k (s : option Z * list optres) (m : Z) : option Z * list optres :=
  match k_of m with
  | None => s
  | Some k =>
      match fst s with
      | None => (Some k, [res_of m k])
      | Some b => if k <? b then (Some k, [res_of m k])
                  else if k =? b then (Some b, snd s ++ [res_of m k]) else s
      end
  end.
Lemma min_k_step_pure s m : 0 <= m < p -> min_k_step clog n p s m = Ok (pure_k s m).
Proof.
  intros Hm. unfold min_k_step, pure_k. rewrite calc_k_of by assumption. cbn [bind].
  destruct (k_of m) as [k|] eqn:E; [|reflexivity].
  rewrite (opt_result_of m k Hm E). cbn [bind].
  destruct (fst s) as [b|]; [|reflexivity].
  destruct (k <? b); [reflexivity|]. now destruct (k =? b).
Qed.

Definition pure_w (s : option Z * list optres) (m : Z) : option Z * list optres :=
  match k_of m with
  | None => s
  | Some k =>
      let w := calc_waste n k (p - m) m in
      match fst s with
      | None => (Some w, [res_of m k])
      | Some b => if w <? b then (Some w, [res_of m k])
                  else if w =? b then (Some b, snd s ++ [res_of m k]) else s
      end
  end.
Lemma min_w_step_pure s m : 0 <= m < p -> min_w_step clog n p s m = Ok (pure_w s m).
Proof.
  intros Hm. unfold min_w_step, pure_w. rewrite calc_k_of by assumption. cbn [bind].
  destruct (k_of m) as [k|] eqn:E; [|reflexivity].
  rewrite (opt_result_of m k Hm E). cbn [bind]. cbv zeta.
  destruct (fst s) as [b|] eqn:F; [|reflexivity].
  destruct (_ <? b); [reflexivity|]. now destruct (_ =? b).
Qed.

Lemma foldM_pure {A S} (f : S -> A -> res S) (g : S -> A -> S) s l :
  (forall s x, In x l -> f s x = Ok (g s x)) -> foldM f s l = Ok (fold_left g l s).
Proof.
  revert s. induction l as [|x l IH]; intros s H; cbn [foldM fold_left]; [reflexivity|].
  rewrite H by now left. cbn [bind]. apply IH. intros; apply H; now right.
Qed.

(* a loop that keeps all items of least value is a search for the minimum *)
Section Best.
Context {R : Type} (val : Z -> option Z) (res : Z -> R).
Definition best_step (s : option Z * list R) (m : Z) : option Z * list R :=
  match val m with
  | None => s
  | Some k =>
      match fst s with
      | None => (Some k, [res m])
      | Some b => if k <? b then (Some k, [res m])
                  else if k =? b then (Some b, snd s ++ [res m]) else s
      end
  end.
Definition eq_val (b m : Z) : bool := match val m with Some k => k =? b | None => false end.
Definition best_inv (seen : list Z) (s : option Z * list R) : Prop :=
  match fst s with
  | None => snd s = [] /\ forall m, In m seen -> val m = None
  | Some b => snd s = map res (filter (eq_val b) seen)
              /\ (exists m, In m seen /\ val m = Some b)
              /\ forall m k, In m seen -> val m = Some k -> b <= k
  end.
Lemma filter_none {A} (f : A -> bool) l : (forall x, In x l -> f x = false) -> filter f l = [].
Proof.
  induction l as [|x l IH]; intros H; cbn [filter]; [reflexivity|].
  rewrite H by now left. apply IH. intros; apply H; now right.
Qed.
Lemma best_step_inv seen s m : best_inv seen s -> best_inv (seen ++ [m]) (best_step s m).
Proof.
  unfold best_inv, best_step. destruct s as [[b|] l]; cbn [fst snd].
  - intros (E & (m0 & I0 & V0) & M). destruct (val m) as [k|] eqn:V.
    + destruct (k <? b) eqn:C1; cbn [fst snd].
      * split; [|split].
        -- rewrite filter_app, filter_none; [|].
           ++ cbn [filter app]. unfold eq_val. rewrite V, Z.eqb_refl. reflexivity.
           ++ intros x Hx. unfold eq_val. destruct (val x) eqn:Vx; [|reflexivity].
              specialize (M _ _ Hx Vx). lia.
        -- exists m. rewrite in_app_iff. cbn. auto.
        -- intros x kx Hx Vx. rewrite in_app_iff in Hx. destruct Hx as [Hx|[<-|[]]].
           ++ specialize (M _ _ Hx Vx). lia.
           ++ rewrite V in Vx. injection Vx as <-. lia.
      * destruct (k =? b) eqn:C2; cbn [fst snd].
        -- split; [|split].
           ++ rewrite filter_app, map_app, <- E. f_equal. cbn [filter]. unfold eq_val.
              rewrite V, C2. reflexivity.
           ++ exists m0. rewrite in_app_iff. auto.
           ++ intros x kx Hx Vx. rewrite in_app_iff in Hx. destruct Hx as [Hx|[<-|[]]].
              ** eauto.
              ** rewrite V in Vx. injection Vx as <-. lia.
        -- split; [|split].
           ++ rewrite filter_app, map_app, <- E. cbn [filter]. unfold eq_val.
              rewrite V, C2. cbn. now rewrite app_nil_r.
           ++ exists m0. rewrite in_app_iff. auto.
           ++ intros x kx Hx Vx. rewrite in_app_iff in Hx. destruct Hx as [Hx|[<-|[]]].
              ** eauto.
              ** rewrite V in Vx. injection Vx as <-. lia.
    + cbn [fst snd]. split; [|split].
      * rewrite filter_app, map_app, <- E. cbn [filter]. unfold eq_val. rewrite V.
        cbn. now rewrite app_nil_r.
      * exists m0. rewrite in_app_iff. auto.
      * intros x kx Hx Vx. rewrite in_app_iff in Hx. destruct Hx as [Hx|[<-|[]]]; [eauto|congruence].
  - intros (E & M). destruct (val m) as [k|] eqn:V; cbn [fst snd].
    + split; [|split].
      * rewrite filter_app, filter_none.
        -- cbn [filter app]. unfold eq_val. rewrite V, Z.eqb_refl. reflexivity.
        -- intros x Hx. unfold eq_val. now rewrite (M x Hx).
      * exists m. rewrite in_app_iff. cbn; auto.
      * intros x kx Hx Vx. rewrite in_app_iff in Hx. destruct Hx as [Hx|[<-|[]]].
        -- rewrite (M x Hx) in Vx. discriminate.
        -- rewrite V in Vx. injection Vx as <-. lia.
    + split; [assumption|]. intros x Hx. rewrite in_app_iff in Hx.
      destruct Hx as [Hx|[<-|[]]]; auto.
Qed.
Lemma best_fold l seen s : best_inv seen s -> best_inv (seen ++ l) (fold_left best_step l s).
Proof.
  revert seen s. induction l as [|m l IH]; intros seen s H; cbn [fold_left].
  - now rewrite app_nil_r.
  - rewrite (app_assoc seen [m] l : seen ++ m :: l = (seen ++ [m]) ++ l).
    apply IH. now apply best_step_inv.
Qed.
Lemma best_search l : best_inv l (fold_left best_step l (None, [])).
Proof. apply (best_fold l []). cbn. split; [reflexivity|intros _ []]. Qed.
End Best.

Lemma fold_left_ext {A B} (f g : A -> B -> A) l a :
  (forall a b, f a b = g a b) -> fold_left f l a = fold_left g l a.
Proof. intros H. revert a. induction l; intros; cbn; [reflexivity|]. now rewrite H. Qed.

(* the first item of least waste *)
Lemma least_waste_spec l best :
  let r := fold_left least_waste l best in
  (forall b, best = Some b -> exists x, r = Some x /\ or_w x <= or_w b) /\
  (forall y, In y l -> exists x, r = Some x /\ or_w x <= or_w y) /\
  (forall x, r = Some x -> In x l \/ best = Some x).
Proof.
  revert best. induction l as [|y l IH]; intros best; cbn zeta; cbn [fold_left].
  - split; [|split].
    + intros b ->. exists b. split; [reflexivity|lia].
    + intros y [].
    + auto.
  - specialize (IH (least_waste best y)). cbn zeta in IH. destruct IH as (A & B & C).
    assert (D : exists z, least_waste best y = Some z /\ or_w z <= or_w y
               /\ (forall b, best = Some b -> or_w z <= or_w b)
               /\ (z = y \/ best = Some z)).
    { unfold least_waste. destruct best as [b|].
      - destruct (or_w y <? or_w b) eqn:E.
        + exists y. split; [reflexivity|]. split; [lia|]. split; [|now left].
          intros b' [= <-]. lia.
        + exists b. split; [reflexivity|]. split; [lia|]. split; [|now right].
          intros b' [= <-]. lia.
      - exists y. split; [reflexivity|]. split; [lia|]. split; [discriminate|now left]. }
    destruct D as (z & Ez & Ly & Lb & O).
    destruct (A z Ez) as (x & Ex & Lx).
    split; [|split].
    + intros b Eb. exists x. split; [assumption|]. specialize (Lb b Eb). lia.
    + intros y' [<-|Hy].
      * exists x. split; [assumption|lia].
      * exact (B y' Hy).
    + intros x' Ex'. destruct (C x' Ex') as [I|I].
      * left. now right.
      * rewrite Ez in I. injection I as ->. destruct O as [->|O]; [left; now left|right; assumption].
Qed.

(* the optimizer, completely *)
Lemma minimize_k_spec :
  exists m k, 1 <= m < p /\ k = cdiv (n - p) (m * (p - 1)) /\
    minimize_k_min_waste clog n p = Ok (res_of m k) /\
    (forall m', 1 <= m' < p -> k <= cdiv (n - p) (m' * (p - 1))) /\
    (forall m', 1 <= m' < p -> k = cdiv (n - p) (m' * (p - 1)) ->
       calc_waste n k (p - m) m <= calc_waste n k (p - m') m').
Proof.
  unfold minimize_k_min_waste, minimize_k.
  rewrite (foldM_pure _ pure_k) by (intros s x Hx; apply min_k_step_pure; now apply zrange_in in Hx).
  cbn [bind].
  set (rs := fun m => res_of m (match k_of m with Some k => k | None => 0 end)).
  rewrite (fold_left_ext pure_k (best_step k_of rs)).
  2:{ intros s m. unfold pure_k, best_step, rs. now destruct (k_of m). }
  pose proof (best_search k_of rs (zrange 0 p)) as B.
  set (s := fold_left _ _ _) in *. clearbody s. destruct s as [[b|] l]; unfold best_inv in B; cbn [fst snd] in *.
  2:{ exfalso. destruct B as [_ B]. specialize (B 1 ltac:(apply zrange_in; lia)).
      unfold k_of in B. discriminate. }
  destruct B as (El & (m0 & I0 & V0) & M).
  assert (Hk1 : forall m, 1 <= m < p -> k_of m = Some (cdiv (n - p) (m * (p - 1)))).
  { intros m Hm. unfold k_of. now replace (m =? 0) with false by lia. }
  assert (Hmem : forall m, In m (filter (eq_val k_of b) (zrange 0 p)) <-> 0 <= m < p /\ k_of m = Some b).
  { intros m. rewrite filter_In, zrange_in. unfold eq_val. split; intros [A C].
    - split; [assumption|]. destruct (k_of m); [|discriminate]. f_equal. lia.
    - rewrite C. rewrite Z.eqb_refl. auto. }
  (* m = 0 is never among the best *)
  assert (N0 : k_of 0 <> Some b).
  { intros E0. unfold k_of in E0. cbn in E0. destruct (p <? n) eqn:C; [discriminate|].
    injection E0 as E0. specialize (M 1 _ ltac:(apply zrange_in; lia) (Hk1 1 ltac:(lia))).
    assert (cdiv (n - p) (1 * (p - 1)) <= 0) by (apply cdiv_least; lia). lia. }
  pose proof (least_waste_spec l None) as (_ & L2 & L3). cbn zeta in *.
  assert (I0' : In (rs m0) l).
  { rewrite El. apply in_map. apply Hmem. split; [now apply zrange_in in I0|assumption]. }
  destruct (L2 _ I0') as (x & Ex & _). rewrite Ex.
  destruct (L3 x Ex) as [Ix|D]; [|discriminate].
  rewrite El in Ix. apply in_map_iff in Ix. destruct Ix as (m & Em & Im).
  apply Hmem in Im. destruct Im as [Rm Vm].
  assert (m <> 0) by (intros ->; contradiction).
  exists m, b. split; [lia|].
  pose proof (Hk1 m ltac:(lia)) as K. rewrite Vm in K. injection K as K.
  split; [assumption|]. split.
  { f_equal. rewrite <- Em. unfold rs. now rewrite Vm. }
  split.
  - intros m' Hm'. apply (M m'); [apply zrange_in; lia|]. now apply Hk1.
  - intros m' Hm' E'. destruct (L2 (rs m')) as (x' & Ex' & Lx').
    + rewrite El. apply in_map. apply Hmem. split; [lia|]. rewrite Hk1 by assumption. now f_equal.
    + rewrite Ex in Ex'. injection Ex' as <-. rewrite <- Em in Lx'. unfold rs in Lx'.
      rewrite Vm in Lx'. rewrite Hk1 in Lx' by assumption. rewrite <- E' in Lx'. exact Lx'.
Qed.
End Search.
