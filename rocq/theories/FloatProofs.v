(* Facts about the binary64 model, up to the round trip of a millisecond count
   through seconds. *)
From Coq Require Import ZArith List Bool Lia ZifyBool.
From Verif Require Import Py Tlv Float Core TlvProofs.
Open Scope Z_scope.

Lemma rne_bound a b : 0 < b -> - b <= 2 * (rne a b * b - a) <= b.
Proof.
  intros Hb. unfold rne.
  pose proof (Z.div_mod a b ltac:(lia)) as E.
  pose proof (Z.mod_pos_bound a b Hb) as R.
  set (q := a / b) in *. set (r := a mod b) in *. clearbody q r.
  destruct (2 * r <? b) eqn:E1; [nia|].
  destruct (b <? 2 * r) eqn:E2; [nia|].
  destruct (Z.even q); nia.
Qed.

Lemma rne_unique a b q : 0 < b -> - b < 2 * (q * b - a) < b -> rne a b = q.
Proof.
  intros Hb H. pose proof (rne_bound a b Hb) as B.
  destruct (Z.lt_trichotomy (rne a b) q) as [L|[L|L]]; [exfalso|assumption|exfalso].
  - assert (rne a b + 1 <= q) by lia. nia.
  - assert (q + 1 <= rne a b) by lia. nia.
Qed.

Lemma rne_exact a b : 0 < b -> rne (a * b) b = a.
Proof. intros. apply rne_unique; lia. Qed.

Lemma pow2_pos e : 0 <= e -> 0 < 2 ^ e.
Proof. intros; apply Z.pow_pos_nonneg; lia. Qed.

(* exponents chosen by the normalisation *)
Lemma fl_exp_spec a b : 0 < a -> 0 < b ->
  let e := fl_exp a b in
  b * 2 ^ Z.max 0 e * 2 ^ 52 <= a * 2 ^ Z.max 0 (- e) < b * 2 ^ Z.max 0 e * 2 ^ 53.
Proof.
  intros Ha Hb. unfold fl_exp. set (la := Z.log2 a). set (lb := Z.log2 b).
  pose proof (Z.log2_spec a Ha) as [A1 A2]. fold la in A1, A2.
  pose proof (Z.log2_spec b Hb) as [B1 B2]. fold lb in B1, B2.
  pose proof (Z.log2_nonneg a) as LA. fold la in LA.
  pose proof (Z.log2_nonneg b) as LB. fold lb in LB.
  rewrite !Z.pow_succ_r in A2, B2 by assumption.
  set (e0 := la - lb - 52).
  assert (U : a * 2 ^ Z.max 0 (- e0) < b * 2 ^ Z.max 0 e0 * 2 ^ 53).
  { apply Z.lt_le_trans with (2 ^ la * 2 * 2 ^ Z.max 0 (- e0)).
    - pose proof (pow2_pos (Z.max 0 (- e0)) ltac:(lia)). nia.
    - apply Z.le_trans with (2 ^ lb * 2 ^ Z.max 0 e0 * 2 ^ 53).
      + change 2 with (2 ^ 1) at 2. rewrite <- !Z.pow_add_r by lia.
        apply Z.pow_le_mono_r; lia.
      + pose proof (pow2_pos (Z.max 0 e0) ltac:(lia)). nia. }
  assert (L : b * 2 ^ Z.max 0 e0 * 2 ^ 51 < a * 2 ^ Z.max 0 (- e0)).
  { apply Z.lt_le_trans with (2 ^ lb * 2 * 2 ^ Z.max 0 e0 * 2 ^ 51).
    - pose proof (pow2_pos (Z.max 0 e0) ltac:(lia)). nia.
    - apply Z.le_trans with (2 ^ la * 2 ^ Z.max 0 (- e0)).
      + change 2 with (2 ^ 1) at 2. rewrite <- !Z.pow_add_r by lia.
        apply Z.pow_le_mono_r; lia.
      + pose proof (pow2_pos (Z.max 0 (- e0)) ltac:(lia)). nia. }
  change (2 ^ 53) with (2 * 2 ^ 52) in *. change (2 ^ 52) with (2 * 2 ^ 51) in *.
  destruct (a * 2 ^ Z.max 0 (- e0) <? b * 2 ^ Z.max 0 e0 * (2 * 2 ^ 51)) eqn:E; cbn zeta.
  - destruct (Z.le_gt_cases e0 0) as [C|C].
    + replace (Z.max 0 (e0 - 1)) with 0 by lia. replace (Z.max 0 e0) with 0 in * by lia.
      replace (Z.max 0 (- (e0 - 1))) with (Z.succ (- e0)) by lia.
      replace (Z.max 0 (- e0)) with (- e0) in * by lia.
      rewrite Z.pow_succ_r by lia. set (k := 2 ^ 51) in *. nia.
    + replace (Z.max 0 (- (e0 - 1))) with 0 by lia. replace (Z.max 0 (- e0)) with 0 in * by lia.
      replace (Z.max 0 e0) with (Z.succ (e0 - 1)) in * by lia.
      replace (Z.max 0 (e0 - 1)) with (e0 - 1) by lia.
      rewrite Z.pow_succ_r in * by lia. set (k := 2 ^ 51) in *. nia.
  - lia.
Qed.

(* m / 1000.0 and the product with 1000, for an integer m that a double holds
   exactly *)
Lemma fl_of_Z_exact m : 0 < m < 2 ^ 53 ->
  exists k, 0 <= k /\ fl_num (fl_of_Z m) = m * 2 ^ k /\ fl_den (fl_of_Z m) = 2 ^ k.
Proof.
  intros [H0 H]. unfold fl_of_Z, fl_round. replace (m =? 0) with false by lia.
  pose proof (fl_exp_spec m 1 ltac:(lia) ltac:(lia)) as E. cbn zeta in E.
  set (e := fl_exp m 1) in *. clearbody e.
  assert (e <= 0) as He.
  { destruct (Z.le_gt_cases e 0); [assumption|exfalso].
    replace (Z.max 0 (- e)) with 0 in E by lia.
    replace (Z.max 0 e) with e in E by lia.
    assert (2 ^ 1 <= 2 ^ e) by (apply Z.pow_le_mono_r; lia).
    change (2 ^ 53) with (2 * 2 ^ 52) in *. set (k := 2 ^ 52) in *. lia. }
  exists (- e). split; [lia|]. unfold fl_num, fl_den; cbn [fm fe].
  replace (Z.max 0 e) with 0 by lia. replace (Z.max 0 (- e)) with (- e) by lia.
  change (2 ^ 0) with 1. rewrite !Z.mul_1_r. split; [|reflexivity].
  rewrite <- (Z.mul_1_r (m * 2 ^ - e)) at 1. apply rne_exact. lia.
Qed.

Lemma div1000_spec m : 0 < m < 2 ^ 53 ->
  exists q s, 0 < s /\ fl_div_Z (fl_of_Z m) 1000 = mkFl q (- s) /\
    1000 * 2 ^ 52 <= m * 2 ^ s < 1000 * 2 ^ 53 /\
    - 1000 <= 2 * (1000 * q - m * 2 ^ s) <= 1000.
Proof.
  intros H. destruct (fl_of_Z_exact m H) as (k & Hk & En & Ed).
  unfold fl_div_Z, fl_round. rewrite En, Ed.
  pose proof (pow2_pos k Hk) as P.
  replace (m * 2 ^ k =? 0) with false by nia.
  pose proof (fl_exp_spec (m * 2 ^ k) (2 ^ k * 1000) ltac:(nia) ltac:(lia)) as E.
  cbn zeta in E. set (e := fl_exp (m * 2 ^ k) (2 ^ k * 1000)) in *. clearbody e.
  assert (He : e < 0).
  { destruct (Z.lt_ge_cases e 0); [assumption|exfalso].
    replace (Z.max 0 (- e)) with 0 in E by lia. replace (Z.max 0 e) with e in E by lia.
    change (2 ^ 0) with 1 in E. destruct E as [E _].
    pose proof (pow2_pos e ltac:(lia)).
    change (2 ^ 53) with (2 * 2 ^ 52) in *. set (z := 2 ^ 52) in *.
    assert (0 < z) by reflexivity. clearbody z. set (K := 2 ^ k) in *. set (E' := 2 ^ e) in *.
    clearbody K E'. assert (K * 1000 * z <= m * K) by nia. nia. }
  replace (Z.max 0 e) with 0 in * by lia. replace (Z.max 0 (- e)) with (- e) in * by lia.
  change (2 ^ 0) with 1 in *. rewrite !Z.mul_1_r in *.
  exists (rne (m * 2 ^ k * 2 ^ - e) (2 ^ k * 1000)), (- e).
  split; [lia|]. split; [f_equal; lia|].
  pose proof (rne_bound (m * 2 ^ k * 2 ^ - e) (2 ^ k * 1000) ltac:(lia)) as R.
  set (q := rne _ _) in *. clearbody q.
  set (K := 2 ^ k) in *. set (S := 2 ^ - e) in *. clearbody K S.
  set (z := 2 ^ 52) in *. change (2 ^ 53) with (2 * z) in *. clearbody z.
  split.
  - nia.
  - assert (- (1000 * K) <= K * (2 * (1000 * q - m * S)) <= 1000 * K) by nia. nia.
Qed.

(* product with 1000 *)
Lemma mul1000_spec m q s : 0 < m < 2 ^ 52 -> 0 < s ->
  1000 * 2 ^ 52 <= m * 2 ^ s < 1000 * 2 ^ 53 ->
  - 1000 <= 2 * (1000 * q - m * 2 ^ s) <= 1000 ->
  exists q2 s2, 0 < s2 /\ (s2 = s - 10 \/ s2 = s - 9) /\
    (2 ^ 62 <= 1000 * q -> s2 = s - 10) /\
    fl_mul_Z (mkFl q (- s)) 1000 = mkFl q2 (- s2) /\
    q2 = rne (1000 * q * 2 ^ s2) (2 ^ s).
Proof.
  intros Hm Hs H1 H2. unfold fl_mul_Z, fl_round, fl_num, fl_den; cbn [fm fe].
  replace (Z.max 0 (- s)) with 0 by lia. replace (Z.max 0 (- - s)) with s by lia.
  change (2 ^ 0) with 1. rewrite Z.mul_1_r.
  pose proof (pow2_pos s ltac:(lia)) as PS.
  assert (Hq : 0 < q * 1000) by lia.
  replace (q * 1000 =? 0) with false by lia.
  pose proof (fl_exp_spec (q * 1000) (2 ^ s) Hq PS) as E. cbn zeta in E.
  set (e := fl_exp (q * 1000) (2 ^ s)) in *. clearbody e.
  (* 1000 q < 2^53 * 2^s *)
  assert (U1 : q * 1000 < 2 ^ 52 * 2 ^ s).
  { assert (m + 1 <= 2 ^ 52) by lia.
    assert (500 < 2 ^ s).
    { destruct (Z.le_gt_cases s 9) as [C|C].
      - assert (2 ^ s <= 2 ^ 9) by (apply Z.pow_le_mono_r; lia).
        change (2 ^ 9) with 512 in *. change (2 ^ 52) with 4503599627370496 in *. nia.
      - assert (2 ^ 10 <= 2 ^ s) by (apply Z.pow_le_mono_r; lia).
        change (2 ^ 10) with 1024 in *. lia. }
    set (z := 2 ^ 52) in *. clearbody z. nia. }
  assert (He : e < 0).
  { destruct (Z.lt_ge_cases e 0); [assumption|exfalso].
    replace (Z.max 0 (- e)) with 0 in E by lia. replace (Z.max 0 e) with e in E by lia.
    change (2 ^ 0) with 1 in E. pose proof (pow2_pos e ltac:(lia)).
    set (z := 2 ^ 52) in *. assert (0 < z) by reflexivity. clearbody z. nia. }
  replace (Z.max 0 e) with 0 in * by lia. replace (Z.max 0 (- e)) with (- e) in * by lia.
  change (2 ^ 0) with 1 in *. rewrite !Z.mul_1_r in *.
  pose proof (pow2_pos (- e) ltac:(lia)) as PE.
  rewrite <- !Z.pow_add_r in E by lia.
  assert (L1 : 2 ^ 61 <= q * 1000).
  { change (2 ^ 61) with 2305843009213693952. change (2 ^ 52) with 4503599627370496 in *. lia. }
  assert (L2 : q * 1000 < 2 ^ 63).
  { change (2 ^ 63) with 9223372036854775808. change (2 ^ 53) with 9007199254740992 in *. lia. }
  assert (A1 : s + 52 < 63 + - e).
  { apply (Z.pow_lt_mono_r_iff 2); [lia|lia|]. rewrite (Z.pow_add_r 2 63) by lia. nia. }
  assert (A2 : 61 + - e < s + 53).
  { apply (Z.pow_lt_mono_r_iff 2); [lia|lia|]. rewrite (Z.pow_add_r 2 61) by lia. nia. }
  exists (rne (1000 * q * 2 ^ - e) (2 ^ s)), (- e).
  split; [lia|]. split; [lia|]. split; [|split; [f_equal; [f_equal; lia | lia]|reflexivity]].
  intros L3. assert (62 + - e < s + 53); [|lia].
  apply (Z.pow_lt_mono_r_iff 2); [lia|lia|]. rewrite (Z.pow_add_r 2 62) by lia. nia.
Qed.

Lemma msec_near m : 0 < m < 2 ^ 52 ->
  let r := fl_trunc (fl_mul_Z (fl_div_Z (fl_of_Z m) 1000) 1000) in
  r = m \/ r = m - 1.
Proof.
  intros H. destruct (div1000_spec m ltac:(change (2^53) with (2 * 2^52); lia))
    as (q & s & Hs & -> & H1 & H2).
  destruct (mul1000_spec m q s H Hs H1 H2) as (q2 & s2 & Hs2 & D & _ & -> & Eq).
  cbn zeta. unfold fl_trunc, fl_num, fl_den; cbn [fm fe].
  replace (Z.max 0 (- s2)) with 0 by lia. replace (Z.max 0 (- - s2)) with s2 by lia.
  change (2 ^ 0) with 1. rewrite Z.mul_1_r.
  pose proof (pow2_pos s ltac:(lia)) as PS. pose proof (pow2_pos s2 ltac:(lia)) as PS2.
  assert (T : 2 <= 2 ^ s2).
  { change 2 with (2 ^ 1) at 1. apply Z.pow_le_mono_r; lia. }
  pose proof (rne_bound (1000 * q * 2 ^ s2) (2 ^ s) PS) as R. rewrite <- Eq in R.
  (* 2^s >= 512 * 2^s2 *)
  assert (B : 512 * 2 ^ s2 <= 2 ^ s).
  { change 512 with (2 ^ 9). rewrite <- Z.pow_add_r by lia. apply Z.pow_le_mono_r; lia. }
  (* q2 within 1 of m * 2^s2 *)
  assert (Near : m * 2 ^ s2 - 1 <= q2 <= m * 2 ^ s2 + 1).
  { clear Eq H1 D.
    set (S := 2 ^ s) in *. set (T2 := 2 ^ s2) in *. clearbody S T2.
    assert (X : - (1000 * T2) <= 2 * (1000 * q * T2 - m * T2 * S) <= 1000 * T2) by nia.
    assert (Y : - (3 * S) < 2 * S * (q2 - m * T2) < 3 * S) by nia.
    nia. }
  assert (m - 1 <= q2 / 2 ^ s2).
  { apply Z.div_le_lower_bound; [lia|]. nia. }
  assert (q2 / 2 ^ s2 < m + 1).
  { apply Z.div_lt_upper_bound; [lia|]. nia. }
  lia.
Qed.

Lemma msec_exact m : 0 < m < 2 ^ 52 ->
  (exists j, 0 <= j /\ 1024 * 2 ^ j <= m < 1000 * 2 ^ (j + 1)) ->
  fl_trunc (fl_mul_Z (fl_div_Z (fl_of_Z m) 1000) 1000) = m.
Proof.
  intros H (j & Hj & W).
  destruct (div1000_spec m ltac:(change (2^53) with (2 * 2^52); lia))
    as (q & s & Hs & -> & H1 & H2).
  (* s = 52 - j *)
  assert (Es : s = 52 - j).
  { pose proof (pow2_pos s ltac:(lia)) as PS. pose proof (pow2_pos j Hj) as PJ.
    assert (A1 : 53 < s + j + 2).
    { apply (Z.pow_lt_mono_r_iff 2); [lia|lia|]. rewrite !Z.pow_add_r by lia.
      change (2 ^ 2) with 4. rewrite Z.pow_add_r in W by lia. change (2 ^ 1) with 2 in W.
      change (2 ^ 53) with (2 * 2 ^ 52) in *. set (z := 2 ^ 52) in *. clearbody z.
      set (S := 2 ^ s) in *. set (J := 2 ^ j) in *. clearbody S J. nia. }
    assert (A2 : s + j < 53).
    { apply (Z.pow_lt_mono_r_iff 2); [lia|lia|]. rewrite Z.pow_add_r by lia.
      set (z := 2 ^ 53) in *. clearbody z.
      set (S := 2 ^ s) in *. set (J := 2 ^ j) in *. clearbody S J.
      assert (1024 * J * S <= m * S) by nia. nia. }
    lia. }
  destruct (mul1000_spec m q s H Hs H1 H2) as (q2 & s2 & Hs2 & D & D2 & -> & Eq).
  assert (PS : 2 ^ 62 <= m * 2 ^ s).
  { apply Z.le_trans with (1024 * 2 ^ j * 2 ^ s).
    - change 1024 with (2 ^ 10). rewrite <- !Z.pow_add_r by lia. apply Z.pow_le_mono_r; lia.
    - pose proof (pow2_pos s ltac:(lia)). nia. }
  assert (Q : 2 ^ 62 <= 1000 * q).
  { (* if m * 2^s = 2^62 then q is known; otherwise q is the rounding of something larger *)
    change (2 ^ 62) with 4611686018427387904 in *.
    assert (4611686018427387904 / 1000 <= q) by lia.
    change (4611686018427387904 / 1000) with 4611686018427387 in *.
    assert (q <> 4611686018427387) by lia. lia. }
  specialize (D2 Q). subst s2.
  unfold fl_trunc, fl_num, fl_den; cbn [fm fe].
  replace (Z.max 0 (- (s - 10))) with 0 by lia. replace (Z.max 0 (- - (s - 10))) with (s - 10) by lia.
  change (2 ^ 0) with 1. rewrite Z.mul_1_r.
  pose proof (pow2_pos (s - 10) ltac:(lia)) as P2.
  assert (ES : 2 ^ s = 1024 * 2 ^ (s - 10)).
  { change 1024 with (2 ^ 10). rewrite <- Z.pow_add_r by lia. f_equal; lia. }
  assert (q2 = m * 2 ^ (s - 10)) as ->.
  { rewrite Eq. apply rne_unique; [lia|].
    rewrite ES in *. set (T := 2 ^ (s - 10)) in *. clearbody T. nia. }
  apply Z.div_mul. lia.
Qed.

Lemma msec_small m : 0 <= m < 1000 ->
  fl_trunc (fl_mul_Z (fl_div_Z (fl_of_Z m) 1000) 1000) = m.
Proof.
  intros H.
  assert (C : forallb (fun n => let m := Z.of_nat n in
      fl_trunc (fl_mul_Z (fl_div_Z (fl_of_Z m) 1000) 1000) =? m) (seq 0 1000) = true)
    by (vm_compute; reflexivity).
  rewrite forallb_forall in C. specialize (C (Z.to_nat m)).
  rewrite Z2Nat.id in C by lia. apply Z.eqb_eq, C. apply in_seq. lia.
Qed.
