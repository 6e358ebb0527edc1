(* C27, C28: the tree optimizer. *)
From Coq Require Import ZArith List Bool Lia ZifyBool.
From Verif Require Import Py Float Tlv TlvProofs Core Flic Crypto Optimizer OptimizerProofs Tree TreeSpec
  TreeProofs.
Import ListNotations.
Open Scope Z_scope.

(* chunks that k interior manifests (d direct, m indirect pointers each) and the
   leaves below them (d + m direct pointers each) hold, all pointers used *)
Definition room_for (k d m : Z) : Z := k * d + (k * m - (k - 1)) * (d + m).

(* What is assumed of math.log: for arguments below 2^45 the rounded quotient
   log(x)/log(b) never makes int(ceil(log(x, b) - s)) smaller than the true
   value and at most one greater. *)
Definition log_ok (clog : Z -> Z -> Z -> Z) : Prop :=
  forall x b s e, 2 <= b -> 0 <= s <= 1 -> 0 <= e -> 1 <= x < 2 ^ 45 ->
    x <= b ^ e -> (e = 0 \/ b ^ (e - 1) < x) -> e - s <= clog x b s <= e - s + 1.
(* ... and that it is exact, which the C library does not promise *)
Definition log_exact (clog : Z -> Z -> Z -> Z) : Prop :=
  forall x b s e, 2 <= b -> 0 <= s <= 1 -> 0 <= e -> 1 <= x < 2 ^ 45 ->
    x <= b ^ e -> (e = 0 \/ b ^ (e - 1) < x) -> clog x b s = e - s.

(* Both are satisfiable: an exact integer logarithm. *)
Fixpoint ilog (fuel : nat) (x b e pw : Z) : Z :=
  match fuel with O => e | S f => if x <=? pw then e else ilog f x b (e + 1) (b * pw) end.
Definition exact_log (x b s : Z) : Z := ilog 46 x b 0 1 - s.

Lemma ilog_spec fuel : forall x b e0 e, 2 <= b -> 0 <= e0 <= e -> e - e0 < Z.of_nat fuel ->
  x <= b ^ e -> (e = 0 \/ b ^ (e - 1) < x) -> ilog fuel x b e0 (b ^ e0) = e.
Proof.
  induction fuel as [|fuel IH]; intros x b e0 e Hb He F H1 H2; cbn [ilog]; [lia|].
  destruct (x <=? b ^ e0) eqn:C.
  - destruct (Z.eq_dec e e0) as [->|N]; [reflexivity|exfalso].
    destruct H2 as [|H2]; [lia|]. pose proof (Z.pow_le_mono_r b e0 (e - 1) ltac:(lia) ltac:(lia)). lia.
  - assert (e <> e0) by (intros ->; lia).
    rewrite <- Z.pow_succ_r by lia. replace (e0 + 1) with (Z.succ e0) by lia.
    apply IH; [lia|lia|lia|assumption|assumption].
Qed.
Lemma exact_log_exact : log_exact exact_log.
Proof.
  intros x b s e Hb Hs He Hx H1 H2. unfold exact_log. f_equal.
  change 1 with (b ^ 0) at 1. apply ilog_spec; try lia.
  destruct (Z.le_gt_cases e 45); [lia|exfalso]. destruct H2 as [|H2]; [lia|].
  pose proof (Z.pow_le_mono_r b 45 (e - 1) ltac:(lia) ltac:(lia)).
  pose proof (Z.pow_le_mono_l 2 b 45 ltac:(lia)). lia.
Qed.
Lemma log_exact_ok clog : log_exact clog -> log_ok clog.
Proof. intros H x b s e ? ? ? ? ? ?. rewrite (H x b s e) by assumption. lia. Qed.

(* ---------------- C27 ---------------- *)

Lemma room_calc_n k d m : room_for k d m = calc_n k d m.
Proof. unfold room_for, calc_n. ring. Qed.

Lemma room_cdiv n p m k : 2 <= p -> 1 <= m ->
  n <= room_for k (p - m) m <-> cdiv (n - p) (m * (p - 1)) <= k.
Proof.
  intros Hp Hm. rewrite room_calc_n. unfold calc_n.
  replace (k * ((p - m) * m + m * m - m) + (p - m) + m) with (k * (m * (p - 1)) + p) by ring.
  split; intros H.
  - apply cdiv_least; nia.
  - pose proof (cdiv_spec (n - p) (m * (p - 1)) ltac:(nia)). nia.
Qed.

(* C27.  For n and p in the range where the float division is exact. *)
Theorem C27_optimizer clog n p : 1 <= n < 2 ^ 52 -> 2 <= p < 2 ^ 52 ->
  exists r, minimize_k_min_waste clog n p = Ok r /\
    or_n r = n /\ or_p r = p /\ 1 <= or_d r /\ 1 <= or_m r /\ or_d r + or_m r = p /\
    (* room for n chunks *)
    n <= room_for (or_k r) (or_d r) (or_m r) /\
    n <= or_k r * or_d r + or_leaf r * p /\ 0 <= or_leaf r /\
    (* no fewer leaves have it *)
    (forall lf, 0 <= lf -> n <= or_k r * or_d r + lf * p -> or_leaf r <= lf) /\
    (* no split needs fewer interior manifests *)
    (forall d m k, 1 <= d -> 1 <= m -> d + m = p -> n <= room_for k d m -> or_k r <= k) /\
    (* and none with as many wastes less *)
    (forall d m, 1 <= d -> 1 <= m -> d + m = p -> n <= room_for (or_k r) d m ->
       room_for (or_k r) (or_d r) (or_m r) <= room_for (or_k r) d m) /\
    or_w r = room_for (or_k r) (or_d r) (or_m r) - n.
Proof.
  intros Hn Hp. destruct (minimize_k_spec clog n p Hn Hp) as (m & k & Hm & Hk & E & Kmin & Wmin).
  exists (res_of clog n p m k). split; [assumption|].
  unfold res_of. cbn [or_n or_p or_d or_m or_k or_w or_leaf].
  split; [reflexivity|]. split; [reflexivity|]. split; [lia|]. split; [lia|]. split; [lia|].
  split. { apply room_cdiv; lia. }
  split. { pose proof (leaf_of_cap clog n p Hp (p - m) k). lia. }
  split. { now apply (leaf_of_nonneg clog). }
  split. { intros lf L C. unfold leaf_of. destruct (n - k * (p - m) <=? 0) eqn:El; [lia|]. apply cdiv_least; lia. }
  split; [|split].
  - intros d' m' k' D M S R. replace d' with (p - m') in R by lia. apply room_cdiv in R; [|lia|lia].
    specialize (Kmin m' ltac:(lia)). lia.
  - intros d' m' D M S R. replace d' with (p - m') in R by lia.
    apply room_cdiv in R; [|lia|lia]. pose proof (Kmin m' ltac:(lia)) as K1.
    specialize (Wmin m' ltac:(lia) ltac:(lia)). unfold calc_waste in Wmin.
    rewrite !room_calc_n. replace d' with (p - m') by lia. lia.
  - unfold calc_waste. now rewrite room_calc_n.
Qed.
Print Assumptions C27_optimizer.

(* 1000 chunks, 40 pointers *)
Example C27_ex : exists r, minimize_k_min_waste exact_log 1000 40 = Ok r /\
  or_d r = 15 /\ or_m r = 25 /\ or_k r = 1 /\ or_leaf r = 25.
Proof. eexists. split; [vm_compute; reflexivity|]. vm_compute. auto. Qed.

(* Beyond 2^53 the float division loses the last chunk: the number of interior
   manifests returned does not hold n chunks. *)
Theorem C27_large_refuted : exists n p r, 1 <= n /\ 2 <= p /\
  minimize_k_min_waste exact_log n p = Ok r /\ room_for (or_k r) (or_d r) (or_m r) < n.
Proof.
  exists (2 ^ 53 + 3), 2. eexists. split; [lia|]. split; [lia|].
  split; [vm_compute; reflexivity|]. vm_compute. reflexivity.
Qed.
Print Assumptions C27_large_refuted.

(* ---------------- C28 ---------------- *)

Lemma capacity_full d m L : capacity d m L = full m L * (m * (d + m - 1)) + (d + m).
Proof.
  induction L as [|L IH]; cbn [capacity full]; [ring|]. rewrite IH. ring.
Qed.

(* the least e with x <= b^e *)
Lemma clog_exists b x : 2 <= b -> 1 <= x ->
  exists e, 0 <= e /\ x <= b ^ e /\ (e = 0 \/ b ^ (e - 1) < x).
Proof.
  intros Hb Hx. destruct (Z.eq_dec x 1) as [->|N]; [exists 0; cbn; lia|].
  assert (H : forall k, (x <= b ^ Z.of_nat k) ->
    exists e, 0 <= e /\ x <= b ^ e /\ (e = 0 \/ b ^ (e - 1) < x)).
  { induction k as [|k IH]; intros H.
    - exists 0. change (Z.of_nat 0) with 0 in H. lia.
    - destruct (Z.le_gt_cases x (b ^ Z.of_nat k)) as [L|G]; [auto|].
      exists (Z.of_nat (S k)). split; [lia|]. split; [assumption|]. right.
      replace (Z.of_nat (S k) - 1) with (Z.of_nat k) by lia. assumption. }
  apply (H (Z.to_nat x)). rewrite Z2Nat.id by lia.
  pose proof (Z.pow_gt_lin_r b x ltac:(lia) ltac:(lia)). lia.
Qed.

(* the height of the tree: the least L for which n chunks fit *)
Definition height_is (n d m : Z) (L : nat) : Prop :=
  n <= capacity d m L /\ forall k, (k < L)%nat -> capacity d m k < n.

Lemma height_exists n d m : 1 <= d -> 1 <= m -> exists L, height_is n d m L.
Proof.
  intros Hd Hm.
  assert (H : forall k, n <= capacity d m k -> exists L, height_is n d m L).
  { induction k as [|k IH]; intros H.
    - exists 0%nat. split; [assumption|lia].
    - destruct (Z.le_gt_cases n (capacity d m k)) as [L|G]; [auto|].
      exists (S k). split; [assumption|]. intros j J.
      pose proof (capacity_mono d m j k Hd Hm ltac:(lia)). lia. }
  apply (H (Z.to_nat n)). rewrite capacity_full.
  pose proof (full_ge m (Z.to_nat n) Hm). assert (1 <= m * (d + m - 1)) by nia. nia.
Qed.

Section Height.
Variables n p m : Z.
Hypothesis Hn : 1 <= n <= 2 ^ 32.
Hypothesis Hp : 2 <= p <= 2 ^ 20.
Hypothesis Hm : 1 <= m < p.
Let d := p - m.
Let k := cdiv (n - p) (m * (p - 1)).
Let N := k + leaf_of n p d k.

Lemma k_bounds : n - p <= k * (m * (p - 1)) < n - p + m * (p - 1).
Proof. apply cdiv_spec. nia. Qed.
Lemma k_full L : n <= capacity d m L <-> k <= full m L.
Proof.
  rewrite capacity_full. unfold d. replace (p - m + m) with p by lia. split; intros H.
  - apply cdiv_least; nia.
  - pose proof k_bounds. nia.
Qed.
Lemma k_nonneg : 2 <= n -> 0 <= k.
Proof.
  intros Hn2. pose proof k_bounds as K. destruct (Z.le_gt_cases 0 k); [assumption|].
  assert (k <= -1) by lia. nia.
Qed.
Lemma leaf_bounds : 2 <= n -> n + k * m <= N * p /\ N <= k * m + 1.
Proof.
  intros Hn2. pose proof k_bounds as K. unfold N, leaf_of.
  pose proof (k_nonneg Hn2) as K0.
  destruct (n - k * d <=? 0) eqn:E.
  - split; [|nia]. unfold d in *. nia.
  - pose proof (cdiv_spec (n - k * d) p ltac:(lia)) as C. set (q := cdiv (n - k * d) p) in *. clearbody q.
    unfold d in *. split; [lia|].
    assert (n - k * (p - m) <= p * (k * (m - 1) + 1)) by nia.
    assert (q * p < p * (k * (m - 1) + 1) + p) by lia.
    assert (q < k * (m - 1) + 1 + 1) by nia. nia.
Qed.

(* m >= 2: the argument of the logarithm lies between m^L and m^(L+1) *)
Lemma log_argument L : 2 <= m -> 2 <= n -> height_is n d m L ->
  m ^ Z.of_nat L < (m - 1) * N + 1 <= m ^ (Z.of_nat L + 1).
Proof.
  intros Hm2 Hn2 [H1 H2]. apply k_full in H1. destruct (leaf_bounds Hn2) as [B1 B2].
  pose proof k_bounds as K. pose proof (full_pow m L) as F.
  replace (Z.of_nat L + 1) with (Z.of_nat (S L)) by lia.
  pose proof (full_pow m (S L)) as F'. cbn [full] in F'.
  split.
  - destruct L as [|L].
    + change (m ^ Z.of_nat 0) with 1. assert (1 <= N) by nia. nia.
    + specialize (H2 L ltac:(lia)).
      assert (K1 : full m L + 1 <= k).
      { destruct (Z.le_gt_cases (full m L + 1) k); [assumption|].
        assert (k <= full m L) by lia. apply k_full in H0. lia. }
      cbn [full] in F.
      assert (full m L * m * p + p + 1 + m <= N * p).
      { rewrite capacity_full in H2. unfold d in H2. replace (p - m + m) with p in H2 by lia. nia. }
      assert (full m L * m + 1 < N) by nia. nia.
  - assert (N <= 1 + m * full m L) by nia. nia.
Qed.

Lemma log_argument_small : 2 <= n -> 2 <= m -> (m - 1) * N + 1 < 2 ^ 45.
Proof.
  intros Hn2 Hm2. destruct (leaf_bounds Hn2) as [_ B]. pose proof k_bounds as K.
  assert (k * m * (p - 1) < n + m * (p - 1)) by lia.
  pose proof (k_nonneg Hn2) as K0. assert (0 <= k * m) by nia.
  assert ((m - 1) * (k * m) <= (p - 1) * (k * m)) by (apply Z.mul_le_mono_nonneg_r; lia).
  assert ((m - 1) * N <= (m - 1) * (k * m + 1)) by (apply Z.mul_le_mono_nonneg_l; lia).
  assert ((m - 1) * N <= n + m * (p - 1) + m) by lia.
  assert (m * (p - 1) <= 2 ^ 20 * 2 ^ 20) by (apply Z.mul_le_mono_nonneg; lia).
  assert (m <= 2 ^ 20) by lia. lia.
Qed.

Definition opt_height (clog : Z -> Z -> Z -> Z) : Z := height_of clog n d m N.

Lemma opt_height_1 clog : n = 1 -> log_ok clog -> (m = 1 -> opt_height clog = 0) /\
  (2 <= m -> 0 <= opt_height clog <= 1 /\ (log_exact clog -> opt_height clog = 0)).
Proof.
  intros E1 Lok. unfold opt_height, height_of.
  assert (C : N = if m =? 1 then 0 else 1).
  { pose proof k_bounds as K. unfold N, leaf_of. rewrite E1 in *. destruct (m =? 1) eqn:E.
    - assert (k = -1) by (assert (E2 : m = 1) by lia; rewrite E2 in K; nia).
      rewrite H. replace (1 - -1 * d <=? 0) with false by (unfold d; lia).
      rewrite (cdiv_unique _ p 1); unfold d; lia.
    - assert (k = 0) by nia. rewrite H. replace (1 - 0 * d <=? 0) with false by lia.
      rewrite (cdiv_unique _ p 1); lia. }
  rewrite C. split; intros Hm1.
  - now rewrite Hm1.
  - replace (m =? 1) with false by lia. replace (m =? 0) with false by lia.
    assert (m < 2 ^ 45) by lia.
    split.
    + pose proof (Lok ((m - 1) * 1 + 1) m 1 1 ltac:(lia) ltac:(lia) ltac:(lia) ltac:(lia) ltac:(lia)).
      lia.
    + intros Lex. rewrite (Lex _ m 1 1); lia.
Qed.

(* the computed height against the true height L *)
Lemma opt_height_ok clog L : log_ok clog -> height_is n d m L ->
  Z.of_nat L <= opt_height clog /\
  (2 <= m -> opt_height clog <= Z.of_nat L + 1 /\ (log_exact clog -> opt_height clog = Z.of_nat L)) /\
  (m = 1 -> 2 <= n -> opt_height clog = Z.of_nat L + leaf_of n p d k) /\
  (m = 1 -> opt_height clog <= n).
Proof.
  intros Lok HL. destruct (Z.eq_dec n 1) as [E1|N1].
  - destruct (opt_height_1 clog E1 Lok) as [A B].
    assert (L0 : L = 0%nat).
    { destruct L as [|L]; [reflexivity|]. destruct HL as [_ HL]. specialize (HL 0%nat ltac:(lia)).
      cbn [capacity] in HL. unfold d in HL. lia. }
    rewrite L0. destruct (Z.eq_dec m 1) as [M1|M1].
    + rewrite (A M1). repeat split; intros; lia.
    + destruct (B ltac:(lia)) as [B1 B2]. split; [lia|]. split; [intros _; split; [lia|exact B2]|]. split; intros; lia.
  - assert (Hn2 : 2 <= n) by lia. destruct (Z.eq_dec m 1) as [M1|M1].
    + assert (LK : Z.of_nat L = k).
      { destruct HL as [H1 H2]. apply k_full in H1. rewrite M1, full_1 in H1.
        destruct (Z.eq_dec (Z.of_nat L) k) as [|NE]; [assumption|exfalso].
        pose proof (k_nonneg Hn2). specialize (H2 (Z.to_nat k) ltac:(lia)).
        assert (n <= capacity d m (Z.to_nat k)); [|lia].
        apply k_full. rewrite M1, full_1. lia. }
      unfold opt_height, height_of. replace (m =? 1) with true by lia. unfold N. rewrite LK.
      assert (0 <= leaf_of n p d k). { apply (leaf_of_nonneg clog n p). lia. }
      destruct (leaf_bounds Hn2) as [B1 B2]. rewrite M1 in B1, B2.
      repeat split; intros; try lia. pose proof k_bounds as K. rewrite M1 in K. fold N. nia.
    + assert (Hm2 : 2 <= m) by lia.
      destruct (log_argument L Hm2 Hn2 HL) as [A1 A2].
      pose proof (log_argument_small Hn2 Hm2) as Sm.
      assert (X1 : 1 <= (m - 1) * N + 1).
      { pose proof (Z.pow_pos_nonneg m (Z.of_nat L) ltac:(lia) ltac:(lia)). lia. }
      unfold opt_height, height_of. replace (m =? 1) with false by lia. replace (m =? 0) with false by lia.
      pose proof (Lok ((m - 1) * N + 1) m 1 (Z.of_nat L + 1) ltac:(lia) ltac:(lia) ltac:(lia) ltac:(lia) A2) as B.
      replace (Z.of_nat L + 1 - 1) with (Z.of_nat L) in B by lia.
      specialize (B ltac:(right; lia)).
      split; [lia|]. split; [|split; intros; lia]. intros _. split; [lia|].
      intros Lex. rewrite (Lex _ m 1 (Z.of_nat L + 1)); try lia.
      right. replace (Z.of_nat L + 1 - 1) with (Z.of_nat L) by lia. lia.
Qed.

(* the manifest ids stay in the range of exact doubles *)
Lemma full_small clog L : log_ok clog -> height_is n d m L ->
  full m (Z.to_nat (opt_height clog + 1)) < 2 ^ 53.
Proof.
  intros Lok HL. destruct (opt_height_ok clog L Lok HL) as (H1 & H2 & _ & H4).
  destruct (Z.eq_dec m 1) as [M1|M1].
  - rewrite M1, full_1. specialize (H4 M1). lia.
  - destruct (H2 ltac:(lia)) as [H3 _].
    assert (F : full m (Z.to_nat (opt_height clog + 1)) <= full m (S (S L))) by (apply full_mono; lia).
    assert (B : full m (S (S L)) <= n * m + m * m + m + 1); [|assert (n * m <= 2 ^ 32 * 2 ^ 20) by (apply Z.mul_le_mono_nonneg; lia); assert (m * m <= 2 ^ 20 * 2 ^ 20) by (apply Z.mul_le_mono_nonneg; lia); lia].
    destruct L as [|L].
    + cbn [full]. nia.
    + destruct HL as [_ HL]. specialize (HL L ltac:(lia)). rewrite capacity_full in HL. unfold d in HL.
      replace (p - m + m) with p in HL by lia. pose proof (full_nonneg m L ltac:(lia)) as F0.
      cbn [full]. set (f := full m L) in *. clearbody f.
      assert (f * m * m <= f * m * (p - 1)) by (apply Z.mul_le_mono_nonneg_l; nia).
      assert (f * m * m <= n) by lia. assert (f * m * m * m <= n * m) by (apply Z.mul_le_mono_nonneg_r; lia). lia.
Qed.
End Height.

(* C28.  For every split of the pointers the height is enough for the tree that
   the builder makes (its height is the least L with room for n chunks, see
   C31). *)
Theorem C28_height_enough clog n p d m k w r : log_ok clog ->
  1 <= n <= 2 ^ 32 -> p <= 2 ^ 20 -> 1 <= d -> 1 <= m -> d + m = p ->
  calc_k n d m = Ok (Some k) -> opt_result clog n p d m k w = Ok r ->
  exists L, height_is n d m L /\ Z.of_nat L <= or_height r /\
    (2 <= m -> or_height r <= Z.of_nat L + 1 /\ (log_exact clog -> or_height r = Z.of_nat L)).
Proof.
  intros Lok Hn Hp Hd Hm E Ek Er.
  assert (D : d = p - m) by lia. subst d.
  assert (Ek' : k_of n p m = Some k).
  { rewrite (calc_k_of clog n p ltac:(lia) ltac:(lia)) in Ek by lia. apply Ok_inj in Ek. exact Ek. }
  destruct (height_exists n (p - m) m Hd Hm) as [L HL].
  destruct (opt_height_ok n p m ltac:(lia) ltac:(lia) ltac:(lia) clog L Lok HL) as (H1 & H2 & _).
  assert (R : or_height r = opt_height n p m clog).
  { assert (K : k = cdiv (n - p) (m * (p - 1))).
    { unfold k_of in Ek'. replace (m =? 0) with false in Ek' by lia. congruence. }
    pose proof (opt_result_of clog n p ltac:(lia) ltac:(lia) m k ltac:(lia) Ek') as O.
    unfold opt_result in O, Er.
    destruct (num_leaf n p (p - m) k) as [lf|]; [|discriminate]. cbn [bind] in *.
    destruct (tree_height clog n (p - m) m (k + lf)) as [hh|]; [|discriminate]. cbn [bind] in *.
    destruct (guard (p - m + m =? p) ValueError); [|discriminate]. cbn [bind] in *.
    destruct (guard (n <=? lf * p + k * (p - m)) ValueError); [|discriminate]. cbn [bind] in *.
    apply Ok_inj in O. apply Ok_inj in Er. subst r. cbn [or_height].
    unfold res_of in O. injection O as _ O2. rewrite O2. subst k. reflexivity. }
  exists L. rewrite R. auto.
Qed.
Print Assumptions C28_height_enough.

(* the height of the tree the optimizer chooses *)
Theorem C28_optimizer_height clog n p : log_ok clog -> 1 <= n <= 2 ^ 32 -> 2 <= p <= 2 ^ 20 ->
  exists r L, minimize_k_min_waste clog n p = Ok r /\
    1 <= or_d r /\ 1 <= or_m r /\ or_d r + or_m r = p /\
    height_is n (or_d r) (or_m r) L /\ Z.of_nat L <= or_height r /\
    (2 <= or_m r -> or_height r <= Z.of_nat L + 1 /\ (log_exact clog -> or_height r = Z.of_nat L)) /\
    full (or_m r) (Z.to_nat (or_height r + 1)) < 2 ^ 53.
Proof.
  intros Lok Hn Hp.
  destruct (minimize_k_spec clog n p ltac:(lia) ltac:(lia)) as (m & k & Hm & Hk & E & _ & _).
  destruct (height_exists n (p - m) m ltac:(lia) ltac:(lia)) as [L HL].
  destruct (opt_height_ok n p m ltac:(lia) ltac:(lia) ltac:(lia) clog L Lok HL) as (H1 & H2 & _).
  pose proof (full_small n p m ltac:(lia) ltac:(lia) ltac:(lia) clog L Lok HL) as F.
  exists (res_of clog n p m k), L. split; [assumption|]. subst k.
  change (or_height (res_of clog n p m _)) with (opt_height n p m clog).
  unfold res_of. cbn [or_d or_m]. repeat (split; [lia|]). split; [assumption|].
  split; [assumption|]. split; assumption.
Qed.
Print Assumptions C28_optimizer_height.

(* 100000 chunks with 40 pointers per manifest: height 3, and the hypotheses
   hold for an exact logarithm *)
Example C28_ex : log_ok exact_log /\ exists r, minimize_k_min_waste exact_log 100000 40 = Ok r /\
  or_d r = 1 /\ or_m r = 39 /\ or_height r = 3 /\ height_is 100000 (or_d r) (or_m r) 3.
Proof.
  split; [apply log_exact_ok, exact_log_exact|]. eexists. split; [vm_compute; reflexivity|].
  cbn [or_d or_m or_height]. repeat (split; [reflexivity|]). split; [vm_compute; discriminate|].
  intros k Hk. destruct k as [|[|[|k]]]; try lia; vm_compute; reflexivity.
Qed.
