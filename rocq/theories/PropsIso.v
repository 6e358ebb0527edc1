(* C83: expiry times given as text. *)
From Coq Require Import ZArith List Bool Lia ZifyBool.
From Verif Require Import Py Tlv Float Core Spec Uri Crypto Apps Iso TlvProofs FloatProofs CoreProofs PropsTlv.
Import ListNotations.
Open Scope Z_scope.
Ltac Zify.zify_post_hook ::= Z.div_mod_to_equations.

(** * Specification *)

Definition d2 (n : Z) : text := [48 + n / 10; 48 + n mod 10].
Definition d4 (n : Z) : text := [48 + n / 1000; 48 + n / 100 mod 10; 48 + n / 10 mod 10; 48 + n mod 10].
Definition digit (c : Z) : Prop := 48 <= c <= 57.
(* the number that digits stand for *)
Definition dval (ds : text) : Z := fold_left (fun a c => 10 * a + (c - 48)) ds 0.

(* a fraction of a second, in whole microseconds *)
Inductive frac_text : text -> Z -> Prop :=
| frac_none : frac_text [] 0
| frac_some c ds : c = 46 \/ c = 44 -> ds <> [] -> Forall digit ds ->
    frac_text (c :: ds) (dval ds * 1000000 / 10 ^ Z.of_nat (length ds)).
Inductive zone_text : text -> option Z -> Prop :=
| zone_none : zone_text [] None
| zone_utc : zone_text [90] (Some 0)
| zone_east h m : 0 <= h < 100 -> 0 <= m < 100 -> zone_text (43 :: d2 h ++ 58 :: d2 m) (Some (h * 3600 + m * 60))
| zone_west h m : 0 <= h < 100 -> 0 <= m < 100 -> zone_text (45 :: d2 h ++ 58 :: d2 m) (Some (- (h * 3600 + m * 60))).
(* YYYY-MM-DD and YYYY-MM-DDTHH:MM:SS, any character for T *)
Inductive writes : text -> dtime -> Prop :=
| w_date y m d : 0 <= y < 10000 -> 0 <= m < 100 -> 0 <= d < 100 ->
    writes (d4 y ++ 45 :: d2 m ++ 45 :: d2 d) (mkDT y m d 0 0 0 0 None)
| w_time y m d c h mi s us off ft zt : 0 <= y < 10000 -> 0 <= m < 100 -> 0 <= d < 100 ->
    0 <= h < 100 -> h <> 24 -> 0 <= mi < 100 -> 0 <= s < 100 ->
    frac_text ft us -> zone_text zt off ->
    writes (d4 y ++ 45 :: d2 m ++ 45 :: d2 d ++ c :: d2 h ++ 58 :: d2 mi ++ 58 :: d2 s ++ ft ++ zt)
      (mkDT y m d h mi s us off).

(* the Gregorian calendar *)
Definition leap_year (y : Z) : Prop := (4 | y) /\ (~ (100 | y) \/ (400 | y)).
Definition month_len (y m n : Z) : Prop :=
  match m with
  | 2 => leap_year y /\ n = 29 \/ ~ leap_year y /\ n = 28
  | 4 | 6 | 9 | 11 => n = 30
  | _ => n = 31
  end.
Definition date := (Z * Z * Z)%type.
Definition is_date (x : date) : Prop :=
  let '(y, m, d) := x in 1 <= y /\ 1 <= m <= 12 /\ 1 <= d /\ exists n, month_len y m n /\ d <= n.
Definition day_after (x x' : date) : Prop :=
  let '(y, m, d) := x in exists n, month_len y m n /\
  (d < n /\ x' = (y, m, d + 1) \/ d = n /\ m < 12 /\ x' = (y, m + 1, 1) \/ d = n /\ m = 12 /\ x' = (y + 1, 1, 1)).
(* days since 1 January 1970, by counting *)
Inductive days_since : date -> Z -> Prop :=
| ds_epoch : days_since (1970, 1, 1) 0
| ds_next x x' n : is_date x -> day_after x x' -> days_since x n -> days_since x' (n + 1)
| ds_prev x x' n : is_date x -> day_after x x' -> days_since x' n -> days_since x (n - 1).

Definition dt_date (x : dtime) : date := (dt_year x, dt_month x, dt_day x).
Definition valid (x : dtime) : Prop :=
  is_date (dt_date x) /\ dt_year x <= 9999 /\ dt_hour x <= 23 /\ dt_min x <= 59 /\ dt_sec x <= 59 /\
  match dt_off x with Some o => -86400 < o < 86400 | None => True end.
(* x is the instant u, in microseconds since 1970-01-01T00:00:00Z *)
Definition instant (x : dtime) (u : Z) : Prop :=
  exists o n, dt_off x = Some o /\ days_since (dt_date x) n /\
  u = (n * 86400 + dt_hour x * 3600 + dt_min x * 60 + dt_sec x - o) * 1000000 + dt_us x.

(** * Texts *)

Lemma digits_d2 n k : 0 <= n < 100 -> digits 2 0 (d2 n ++ k) = Some (n, k).
Proof.
  intros H. unfold d2. cbn [app digits]. unfold is_digit.
  replace ((48 <=? 48 + n / 10) && (48 + n / 10 <=? 57)) with true by lia.
  replace ((48 <=? 48 + n mod 10) && (48 + n mod 10 <=? 57)) with true by lia.
  do 2 f_equal. lia.
Qed.
Lemma digits_d4 n k : 0 <= n < 10000 -> digits 4 0 (d4 n ++ k) = Some (n, k).
Proof.
  intros H. unfold d4. cbn [app digits]. unfold is_digit.
  replace ((48 <=? 48 + n / 1000) && (48 + n / 1000 <=? 57)) with true by lia.
  replace ((48 <=? 48 + n / 100 mod 10) && (48 + n / 100 mod 10 <=? 57)) with true by lia.
  replace ((48 <=? 48 + n / 10 mod 10) && (48 + n / 10 mod 10 <=? 57)) with true by lia.
  replace ((48 <=? 48 + n mod 10) && (48 + n mod 10 <=? 57)) with true by lia.
  do 2 f_equal. lia.
Qed.
Lemma digits2_inv t n r : digits 2 0 t = Some (n, r) -> 0 <= n < 100 /\ t = d2 n ++ r.
Proof.
  destruct t as [|a [|b t]]; cbn [digits]; try discriminate; unfold is_digit.
  - destruct ((48 <=? a) && (a <=? 57)); discriminate.
  - destruct ((48 <=? a) && (a <=? 57)) eqn:A; [|discriminate].
    destruct ((48 <=? b) && (b <=? 57)) eqn:B; [|discriminate].
    intros E. injection E as <- <-. split; [lia|]. unfold d2. cbn [app]. f_equal; [lia|]. f_equal. lia.
Qed.
Lemma digits4_inv t n r : digits 4 0 t = Some (n, r) -> 0 <= n < 10000 /\ t = d4 n ++ r.
Proof.
  destruct t as [|a [|b [|c [|d t]]]]; cbn [digits]; try discriminate; unfold is_digit;
    repeat match goal with |- context [if ?q then _ else _] => destruct q eqn:? end; try discriminate.
  intros E. injection E as <- <-. split; [lia|]. unfold d4. cbn [app].
  f_equal; [lia|]. f_equal; [lia|]. f_equal; [lia|]. f_equal. lia.
Qed.
Lemma then_digits_d2 c n k : 0 <= n < 100 -> then_digits c 2 (c :: d2 n ++ k) = Some (n, k).
Proof. intros H. unfold then_digits, lit, obind. rewrite Z.eqb_refl. apply digits_d2, H. Qed.
Lemma then_digits_inv c t n r : then_digits c 2 t = Some (n, r) -> 0 <= n < 100 /\ t = c :: d2 n ++ r.
Proof.
  unfold then_digits, lit, obind. destruct t as [|x t]; [discriminate|].
  destruct (x =? c) eqn:E; [|discriminate]. apply Z.eqb_eq in E as ->.
  intros H. apply digits2_inv in H as [A ->]. auto.
Qed.

Lemma span_app ds r : Forall digit ds -> match r with c :: _ => ~ digit c | [] => True end ->
  span_digits (ds ++ r) = (ds, r).
Proof.
  induction 1 as [|c ds Hc _ IH]; intros Hr; cbn [app].
  - destruct r as [|x r]; [reflexivity|]. cbn [span_digits]. unfold is_digit, digit in *.
    replace ((48 <=? x) && (x <=? 57)) with false by lia. reflexivity.
  - cbn [span_digits]. unfold is_digit. unfold digit in Hc.
    replace ((48 <=? c) && (c <=? 57)) with true by lia. rewrite IH by assumption. reflexivity.
Qed.
Lemma span_inv t ds r : span_digits t = (ds, r) -> t = ds ++ r /\ Forall digit ds.
Proof.
  revert ds r. induction t as [|c t IH]; cbn [span_digits]; intros ds r E.
  - injection E as <- <-. auto.
  - destruct (is_digit c) eqn:D.
    + destruct (span_digits t) as [a s] eqn:S. injection E as <- <-.
      destruct (IH _ _ eq_refl) as [-> F]. split; [reflexivity|]. constructor; [|assumption].
      unfold is_digit, digit in *. lia.
    + injection E as <- <-. auto.
Qed.
Lemma fold_dval ds a : fold_left (fun a c => 10 * a + (c - 48)) ds a = a * 10 ^ Z.of_nat (length ds) + dval ds.
Proof.
  unfold dval. revert a. induction ds as [|c ds IH]; intros a; cbn [fold_left length].
  - change (10 ^ Z.of_nat 0) with 1. lia.
  - rewrite IH, (IH (10 * 0 + (c - 48))). rewrite Nat2Z.inj_succ, Z.pow_succ_r by lia. ring.
Qed.
Lemma dval_cons c ds : dval (c :: ds) = (c - 48) * 10 ^ Z.of_nat (length ds) + dval ds.
Proof. unfold dval at 1. cbn [fold_left]. rewrite fold_dval. f_equal. Qed.
Lemma dval_bound ds : Forall digit ds -> 0 <= dval ds < 10 ^ Z.of_nat (length ds).
Proof.
  induction 1 as [|c ds H _ IH]; [cbv; split; congruence|].
  rewrite dval_cons. cbn [length]. rewrite Nat2Z.inj_succ, Z.pow_succ_r by lia. unfold digit in H. nia.
Qed.
Lemma micros_nil n a : micros n a [] = a * 10 ^ Z.of_nat n.
Proof.
  revert a; induction n as [|n IH]; intros a; cbn [micros]; [change (10 ^ Z.of_nat 0) with 1; lia|].
  rewrite IH, Nat2Z.inj_succ, Z.pow_succ_r by lia. ring.
Qed.
Lemma micros_spec n : forall a ds, Forall digit ds ->
  micros n a ds = a * 10 ^ Z.of_nat n + dval ds * 10 ^ Z.of_nat n / 10 ^ Z.of_nat (length ds).
Proof.
  induction n as [|n IH]; intros a ds F.
  - cbn [micros]. change (10 ^ Z.of_nat 0) with 1. rewrite !Z.mul_1_r.
    rewrite Z.div_small by (apply dval_bound; assumption). lia.
  - destruct F as [|c ds Hc F]; cbn [micros].
    + rewrite micros_nil, Nat2Z.inj_succ, Z.pow_succ_r by lia. cbn [length].
      change (10 ^ Z.of_nat 0) with 1. rewrite Z.div_1_r. change (dval []) with 0. ring.
    + rewrite IH by assumption. cbn [length]. rewrite dval_cons, !Nat2Z.inj_succ, !Z.pow_succ_r by lia.
      set (L := 10 ^ Z.of_nat (length ds)). set (N := 10 ^ Z.of_nat n).
      assert (0 < L) by (apply Z.pow_pos_nonneg; lia).
      replace (((c - 48) * L + dval ds) * (10 * N)) with (10 * ((c - 48) * N * L + dval ds * N)) by ring.
      rewrite Z.div_mul_cancel_l by lia.
      rewrite Z.add_comm, (Z.add_comm ((c - 48) * N * L)), Z.div_add by lia. ring.
Qed.

Lemma frac_stop zt o : zone_text zt o -> match zt with c :: _ => ~ digit c /\ c <> 46 /\ c <> 44 | [] => True end.
Proof. unfold digit. destruct 1; cbn [app]; try exact I; lia. Qed.
Lemma fraction_text ft us zt o : frac_text ft us -> zone_text zt o -> fraction (ft ++ zt) = Some (us, zt).
Proof.
  intros F Z. apply frac_stop in Z. destruct F as [|c ds Hc Hn F]; cbn [app].
  - destruct zt as [|c zt]; [reflexivity|]. cbn [fraction].
    replace ((c =? 46) || (c =? 44)) with false by lia. reflexivity.
  - cbn [fraction]. replace ((c =? 46) || (c =? 44)) with true by lia.
    rewrite span_app; [|assumption|destruct zt; [exact I|apply Z]].
    destruct ds as [|x ds]; [congruence|].
    rewrite micros_spec by assumption. do 2 f_equal.
Qed.
Lemma fraction_inv t us r : fraction t = Some (us, r) -> exists ft, t = ft ++ r /\ frac_text ft us.
Proof.
  destruct t as [|c t]; cbn [fraction].
  - intros E. injection E as <- <-. exists []. split; [reflexivity|constructor].
  - destruct ((c =? 46) || (c =? 44)) eqn:C.
    + destruct (span_digits t) as [[|x ds] s] eqn:S; [discriminate|]. intros E.
      assert (micros 6 0 (x :: ds) = us /\ s = r) as [<- <-] by (split; congruence).
      apply span_inv in S as [-> F]. exists (c :: x :: ds). split; [reflexivity|].
      rewrite micros_spec by assumption. apply frac_some; [lia|discriminate|assumption].
    + intros E. injection E as <- <-. exists []. split; [reflexivity|constructor].
Qed.
Lemma zone_ok zt o : zone_text zt o -> zone zt = Some o.
Proof.
  destruct 1 as [| |h m Hh Hm|h m Hh Hm]; [reflexivity|reflexivity| |].
  - change (zone (43 :: d2 h ++ 58 :: d2 m)) with
      (obind (digits 2 0 (d2 h ++ 58 :: d2 m)) (fun '(h, t) =>
       obind (then_digits 58 2 t) (fun '(m, t) =>
       match t with [] => Some (Some (1 * (h * 3600 + m * 60))) | _ => None end))).
    rewrite digits_d2 by assumption. cbn [obind]. rewrite <- (app_nil_r (d2 m)), then_digits_d2 by assumption.
    cbn [obind]. do 2 f_equal. lia.
  - change (zone (45 :: d2 h ++ 58 :: d2 m)) with
      (obind (digits 2 0 (d2 h ++ 58 :: d2 m)) (fun '(h, t) =>
       obind (then_digits 58 2 t) (fun '(m, t) =>
       match t with [] => Some (Some (-1 * (h * 3600 + m * 60))) | _ => None end))).
    rewrite digits_d2 by assumption. cbn [obind]. rewrite <- (app_nil_r (d2 m)), then_digits_d2 by assumption.
    cbn [obind]. do 2 f_equal; lia.
Qed.
Lemma zone_unf c t : zone (c :: t) =
  if (c =? 90) && match t with [] => true | _ => false end then Some (Some 0) else
  if (c =? 43) || (c =? 45) then
      obind (digits 2 0 t) (fun '(h, t) =>
      obind (then_digits 58 2 t) (fun '(m, t) =>
      match t with
      | [] => Some (Some ((if c =? 45 then -1 else 1) * (h * 3600 + m * 60)))
      | _ => None
      end)) else None.
Proof.
  destruct (c =? 90) eqn:E.
  - apply Z.eqb_eq in E as ->. destruct t; reflexivity.
  - cbn [andb]. destruct c as [|p|p]; try reflexivity. unfold zone.
    repeat (destruct p; try reflexivity; try discriminate).
Qed.
Lemma zone_inv t o : zone t = Some o -> zone_text t o.
Proof.
  destruct t as [|c t]; [intros E; injection E as <-; constructor|]. rewrite zone_unf.
  destruct ((c =? 90) && match t with [] => true | _ => false end) eqn:U.
  - destruct t; [|lia]. intros E. injection E as <-. replace c with 90 by lia. constructor.
  - destruct ((c =? 43) || (c =? 45)) eqn:C; [|discriminate].
    destruct (digits 2 0 t) as [[h t1]|] eqn:H; [|discriminate]. cbn [obind].
    apply digits2_inv in H as [Hh ->].
    destruct (then_digits 58 2 t1) as [[m t2]|] eqn:M; [|discriminate]. cbn [obind].
    apply then_digits_inv in M as [Hm ->]. destruct t2; [|discriminate].
    intros E. rewrite app_nil_r. destruct (c =? 45) eqn:C5.
    + replace c with 45 by lia. assert (o = Some (- (h * 3600 + m * 60))) as ->.
      { apply (f_equal (fun x => match x with Some y => y | None => None end)) in E. rewrite <- E. f_equal; lia. }
      constructor; assumption.
    + replace c with 43 by lia. assert (o = Some (h * 3600 + m * 60)) as ->.
      { apply (f_equal (fun x => match x with Some y => y | None => None end)) in E. rewrite <- E. f_equal; lia. }
      constructor; assumption.
Qed.

Lemma iso_fields_writes t x : iso_fields t = Some x <-> writes t x.
Proof.
  split.
  - unfold iso_fields. intros E.
    destruct (digits 4 0 t) as [[y t1]|] eqn:Y; [|discriminate]. cbn [obind] in E. apply digits4_inv in Y as [Hy ->].
    destruct (then_digits 45 2 t1) as [[m t2]|] eqn:M; [|discriminate]. cbn [obind] in E. apply then_digits_inv in M as [Hm ->].
    destruct (then_digits 45 2 t2) as [[d t3]|] eqn:D; [|discriminate]. cbn [obind] in E. apply then_digits_inv in D as [Hd ->].
    destruct t3 as [|c t3].
    { injection E as <-. rewrite app_nil_r. constructor; assumption. }
    destruct (digits 2 0 t3) as [[h t4]|] eqn:H; [|discriminate]. cbn [obind] in E. apply digits2_inv in H as [Hh ->].
    destruct (then_digits 58 2 t4) as [[mi t5]|] eqn:MI; [|discriminate]. cbn [obind] in E. apply then_digits_inv in MI as [Hmi ->].
    destruct (then_digits 58 2 t5) as [[s t6]|] eqn:S; [|discriminate]. cbn [obind] in E. apply then_digits_inv in S as [Hs ->].
    destruct (fraction t6) as [[us t7]|] eqn:F; [|discriminate]. cbn [obind] in E. apply fraction_inv in F as (ft & -> & F).
    destruct (zone t7) as [z|] eqn:Z; [|discriminate]. cbn [obind] in E. apply zone_inv in Z.
    destruct (h =? 24) eqn:H24; [discriminate|]. injection E as <-.
    apply w_time; try assumption. lia.
  - destruct 1; unfold iso_fields.
    + rewrite digits_d4 by assumption. cbn [obind]. rewrite then_digits_d2 by assumption. cbn [obind].
      rewrite <- (app_nil_r (d2 d)), then_digits_d2 by assumption. reflexivity.
    + rewrite digits_d4 by assumption. cbn [obind]. rewrite then_digits_d2 by assumption. cbn [obind].
      rewrite then_digits_d2 by assumption. cbn [obind]. rewrite digits_d2 by assumption. cbn [obind].
      rewrite then_digits_d2 by assumption. cbn [obind]. rewrite then_digits_d2 by assumption. cbn [obind].
      erewrite fraction_text by eassumption. cbn [obind]. erewrite zone_ok by eassumption. cbn [obind].
      replace (h =? 24) with false by lia. reflexivity.
Qed.

(** * The calendar *)

Lemma leap_spec y : is_leap y = true <-> leap_year y.
Proof.
  unfold is_leap, leap_year. rewrite <- !Z.mod_divide by lia. lia.
Qed.
Lemma month_len_spec y m n : 1 <= m <= 12 -> (month_len y m n <-> n = days_in_month y m).
Proof.
  intros H. unfold month_len, days_in_month. pose proof (leap_spec y) as L.
  assert (m = 1 \/ m = 2 \/ m = 3 \/ m = 4 \/ m = 5 \/ m = 6 \/ m = 7 \/ m = 8 \/ m = 9 \/ m = 10 \/ m = 11 \/ m = 12)
    as C by lia.
  destruct C as [->|[->|[->|[->|[->|[->|[->|[->|[->|[->|[->| ->]]]]]]]]]]]; try (cbn; tauto).
  destruct (is_leap y).
  - cbn. assert (leap_year y) by tauto. tauto.
  - cbn. assert (~ leap_year y) by (intros A; apply L in A; discriminate). tauto.
Qed.
Lemma is_date_spec y m d : is_date (y, m, d) <->
  1 <= y /\ 1 <= m <= 12 /\ 1 <= d <= days_in_month y m.
Proof.
  unfold is_date. split.
  - intros (A & B & C & n & M & D). apply month_len_spec in M; [|assumption]. subst. lia.
  - intros (A & B & C). repeat split; try lia. exists (days_in_month y m). split; [|lia].
    apply month_len_spec; auto.
Qed.
Lemma dby_next y : days_before_year (y + 1) = days_before_year y + 365 + (if is_leap y then 1 else 0).
Proof. unfold days_before_year, is_leap. cbv zeta. destruct (_ && _) eqn:E; lia. Qed.
Lemma month_next y m : 1 <= m -> m < 12 -> days_before_month y (m + 1) = days_before_month y m + days_in_month y m.
Proof.
  intros H H'. unfold days_before_month, days_in_month.
  assert (m = 1 \/ m = 2 \/ m = 3 \/ m = 4 \/ m = 5 \/ m = 6 \/ m = 7 \/ m = 8 \/ m = 9 \/ m = 10 \/ m = 11) as C by lia.
  destruct C as [->|[->|[->|[->|[->|[->|[->|[->|[->|[->| ->]]]]]]]]]]; destruct (is_leap y); reflexivity.
Qed.
Lemma month_range y m : 1 <= m <= 12 -> 28 <= days_in_month y m <= 31 /\ 0 <= days_before_month y m /\
  days_before_month y m + days_in_month y m <= 365 + (if is_leap y then 1 else 0).
Proof.
  intros H. unfold days_before_month, days_in_month.
  assert (m = 1 \/ m = 2 \/ m = 3 \/ m = 4 \/ m = 5 \/ m = 6 \/ m = 7 \/ m = 8 \/ m = 9 \/ m = 10 \/ m = 11 \/ m = 12)
    as C by lia.
  destruct C as [->|[->|[->|[->|[->|[->|[->|[->|[->|[->|[->| ->]]]]]]]]]]]; destruct (is_leap y); (repeat split); vm_compute; congruence.
Qed.
Lemma day_after_ord y m d x' : is_date (y, m, d) -> day_after (y, m, d) x' ->
  is_date x' /\ let '(y', m', d') := x' in ymd_to_ord y' m' d' = ymd_to_ord y m d + 1.
Proof.
  intros H (n & M & C). apply is_date_spec in H as (A & B & D). apply month_len_spec in M; [|assumption]. subst n.
  destruct C as [[C ->]|[(C & C' & ->)|(C & C' & ->)]]; (split; [apply is_date_spec|]).
  - lia.
  - unfold ymd_to_ord. lia.
  - pose proof (month_range y (m + 1)). lia.
  - unfold ymd_to_ord. rewrite month_next by lia. lia.
  - pose proof (month_range (y + 1) 1). lia.
  - unfold ymd_to_ord. rewrite dby_next. subst m d.
    change (days_in_month y 12) with 31. change (days_before_month (y + 1) 1) with 0.
    change (days_before_month y 12) with (334 + (if is_leap y then 1 else 0)). lia.
Qed.
Lemma day_before y m d : is_date (y, m, d) -> (y, m, d) <> (1, 1, 1) ->
  exists x, is_date x /\ day_after x (y, m, d).
Proof.
  intros H N. apply is_date_spec in H as (A & B & D).
  destruct (Z.eq_dec d 1) as [->|].
  - destruct (Z.eq_dec m 1) as [->|].
    + assert (y <> 1) by congruence. exists (y - 1, 12, 31). split; [apply is_date_spec; change (days_in_month (y - 1) 12) with 31; lia|].
      exists 31. split; [reflexivity|]. right; right. repeat split. f_equal. f_equal. lia.
    + exists (y, m - 1, days_in_month y (m - 1)). pose proof (month_range y (m - 1)).
      split; [apply is_date_spec; lia|]. exists (days_in_month y (m - 1)). split; [apply month_len_spec; lia|].
      right; left. repeat split; [lia|]. f_equal. f_equal. lia.
  - exists (y, m, d - 1). split; [apply is_date_spec; lia|]. exists (days_in_month y m).
    split; [apply month_len_spec; lia|]. left. split; [lia|]. f_equal. lia.
Qed.
Lemma day_next x : is_date x -> exists x', is_date x' /\ day_after x x'.
Proof.
  destruct x as [[y m] d]. intros H. pose proof H as H'. apply is_date_spec in H as (A & B & D).
  assert (day_after (y, m, d) (if d <? days_in_month y m then (y, m, d + 1) else if m <? 12 then (y, m + 1, 1) else (y + 1, 1, 1))).
  { exists (days_in_month y m). split; [apply month_len_spec; auto|].
    destruct (d <? days_in_month y m) eqn:E; [left; split; [lia|reflexivity]|].
    destruct (m <? 12) eqn:E'; right; [left|right]; repeat split; lia. }
  eexists. split; [|eassumption]. eapply day_after_ord; eassumption.
Qed.
Definition ord (x : date) : Z := let '(y, m, d) := x in ymd_to_ord y m d.
Lemma day_after_ord' x x' : is_date x -> day_after x x' -> is_date x' /\ ord x' = ord x + 1.
Proof.
  destruct x as [[y m] d]. intros H A. destruct (day_after_ord _ _ _ _ H A) as [B C]. split; [assumption|].
  destruct x' as [[y' m'] d']. exact C.
Qed.
Lemma dby_mono y y' : y <= y' -> days_before_year y <= days_before_year y'.
Proof. intros H. unfold days_before_year. cbv zeta. lia. Qed.
Lemma ord_year y m d : is_date (y, m, d) -> days_before_year y < ymd_to_ord y m d <= days_before_year (y + 1).
Proof.
  intros H. apply is_date_spec in H as (A & B & D). pose proof (month_range y m B) as (M1 & M2 & M3).
  rewrite dby_next. unfold ymd_to_ord. lia.
Qed.
Lemma ord_epoch x : is_date x -> ord x = EPOCH -> x = (1970, 1, 1).
Proof.
  destruct x as [[y m] d]. cbn [ord]. intros H E. pose proof (ord_year y m d H) as Y. rewrite E in Y.
  assert (y = 1970) as ->.
  { destruct (Z.lt_trichotomy y 1970) as [L|[L|L]]; [|assumption|].
    - pose proof (dby_mono (y + 1) 1970 ltac:(lia)). change (days_before_year 1970) with 719162 in *. unfold EPOCH in *. lia.
    - pose proof (dby_mono 1971 y ltac:(lia)). change (days_before_year 1971) with 719527 in *. unfold EPOCH in *. lia. }
  apply is_date_spec in H as (A & B & D). unfold ymd_to_ord in E. change (days_before_year 1970) with 719162 in E.
  unfold EPOCH in E. pose proof (month_range 1970 m B).
  assert (m = 1 \/ m = 2 \/ m = 3 \/ m = 4 \/ m = 5 \/ m = 6 \/ m = 7 \/ m = 8 \/ m = 9 \/ m = 10 \/ m = 11 \/ m = 12)
    as C by lia.
  destruct C as [->|[->|[->|[->|[->|[->|[->|[->|[->|[->|[->| ->]]]]]]]]]]];
    match type of E with context [days_before_month 1970 ?k] =>
      let v := eval vm_compute in (days_before_month 1970 k) in change (days_before_month 1970 k) with v in E
    end; try (exfalso; lia).
  f_equal. lia.
Qed.
Lemma days_since_ord x n : days_since x n -> is_date x /\ ord x = EPOCH + n.
Proof.
  induction 1 as [|x x' n D A S [I O]|x x' n D A S [I O]].
  - split; [apply is_date_spec; change (days_in_month 1970 1) with 31; lia|reflexivity].
  - destruct (day_after_ord' _ _ D A) as [D' O']. split; [assumption|lia].
  - destruct (day_after_ord' _ _ D A) as [D' O']. split; [assumption|lia].
Qed.
Lemma days_since_reach x : is_date x -> days_since x (ord x - EPOCH).
Proof.
  intros H. destruct (Z.le_gt_cases EPOCH (ord x)) as [L|L].
  - assert (forall k, 0 <= k -> forall x, is_date x -> ord x = EPOCH + k -> days_since x k) as G.
    { apply (natlike_ind (fun k => forall x, is_date x -> ord x = EPOCH + k -> days_since x k)).
      - intros z Hz E. rewrite (ord_epoch z Hz) by lia. constructor.
      - intros k K IH z Hz E. destruct z as [[y m] d].
        destruct (day_before y m d Hz) as (w & Hw & A).
        { intros C. rewrite C in E. change (ord (1, 1, 1)) with 1 in E. unfold EPOCH in E. lia. }
        destruct (day_after_ord' _ _ Hw A) as [_ O]. rewrite <- Z.add_1_r.
        apply ds_next with w; try assumption. apply IH; [assumption|lia]. }
    apply G; [lia|assumption|lia].
  - assert (forall k, 0 <= k -> forall x, is_date x -> ord x = EPOCH - k -> days_since x (- k)) as G.
    { apply (natlike_ind (fun k => forall x, is_date x -> ord x = EPOCH - k -> days_since x (- k))).
      - intros z Hz E. rewrite (ord_epoch z Hz) by lia. constructor.
      - intros k K IH z Hz E. destruct (day_next z Hz) as (w & Hw & A).
        destruct (day_after_ord' _ _ Hz A) as [_ O]. replace (- Z.succ k) with (- k - 1) by lia.
        apply ds_prev with w; try assumption. apply IH; [assumption|lia]. }
    replace (ord x - EPOCH) with (- (EPOCH - ord x)) by lia. apply G; [lia|assumption|lia].
Qed.

Lemma dt_check_spec x : 0 <= dt_hour x -> 0 <= dt_min x -> 0 <= dt_sec x -> (dt_check x = true <-> valid x).
Proof.
  intros H1 H2 H3. unfold dt_check, valid, dt_date. rewrite is_date_spec.
  destruct (dt_off x); lia.
Qed.
Lemma writes_fields t x : writes t x -> 0 <= dt_hour x /\ 0 <= dt_min x /\ 0 <= dt_sec x /\ 0 <= dt_us x < 1000000.
Proof.
  destruct 1 as [|y m d c h mi s us off ft zt Hy Hm Hd Hh H24 Hmi Hs F Z]; cbn; [lia|].
  repeat split; try lia; destruct F as [|e ds He Hn F]; try lia; pose proof (dval_bound ds F) as B.
  - apply Z.div_pos; [lia|]. apply Z.pow_pos_nonneg; lia.
  - apply Z.div_lt_upper_bound; [apply Z.pow_pos_nonneg; lia|]. lia.
Qed.
Lemma instant_spec x u : instant x u -> exists o, dt_off x = Some o /\ u = dt_micros x o.
Proof.
  intros (o & n & Ho & Hd & ->). exists o. split; [assumption|]. apply days_since_ord in Hd as [_ E].
  unfold dt_micros. unfold ord, dt_date in E. rewrite E. f_equal. lia.
Qed.

(** * Floats *)

Lemma rne_ratio a b c d : 0 < b -> 0 < d -> a * d = c * b -> rne a b = rne c d.
Proof.
  intros Hb Hd E. unfold rne.
  assert (Q : a / b = c / d).
  { rewrite <- (Z.div_mul_cancel_r a b d) by lia. rewrite <- (Z.div_mul_cancel_r c d b) by lia.
    rewrite E. f_equal. ring. }
  assert (R : a mod b * d = c mod d * b).
  { rewrite !Z.mod_eq by lia. rewrite Q. lia. }
  cbv zeta. rewrite <- Q. set (r := a mod b) in *. set (s := c mod d) in *. clearbody r s. clear Q E.
  replace (2 * s <? d) with (2 * r <? b) by (destruct (2 * r <? b) eqn:A, (2 * s <? d) eqn:B; try reflexivity; nia).
  replace (d <? 2 * s) with (b <? 2 * r) by (destruct (b <? 2 * r) eqn:A, (d <? 2 * s) eqn:B; try reflexivity; nia).
  reflexivity.
Qed.
Lemma scale e K : 0 <= K -> - K <= e -> 2 ^ Z.max 0 e * 2 ^ K = 2 ^ (e + K) * 2 ^ Z.max 0 (- e).
Proof. intros. rewrite <- !Z.pow_add_r by lia. f_equal. lia. Qed.
Lemma fl_exp_le a b c d : 0 < a -> 0 < b -> 0 < c -> 0 < d -> a * d = c * b -> fl_exp a b <= fl_exp c d.
Proof.
  intros Ha Hb Hc Hd E. pose proof (fl_exp_spec a b Ha Hb) as [A _]. pose proof (fl_exp_spec c d Hc Hd) as [_ C].
  cbv zeta in A, C. set (e := fl_exp a b) in *. set (g := fl_exp c d) in *. clearbody e g.
  destruct (Z.le_gt_cases e g) as [|L]; [assumption|exfalso].
  set (K := Z.abs e + Z.abs g).
  pose proof (scale e K ltac:(lia) ltac:(lia)) as Se. pose proof (scale g K ltac:(lia) ltac:(lia)) as Sg.
  assert (P : 2 ^ (g + K) * 2 <= 2 ^ (e + K)).
  { replace (2 ^ (g + K) * 2) with (2 ^ (g + K + 1)) by (rewrite Z.pow_add_r by lia; reflexivity).
    apply Z.pow_le_mono_r; lia. }
  pose proof (pow2_pos (Z.max 0 (- e)) ltac:(lia)) as P1. pose proof (pow2_pos (Z.max 0 (- g)) ltac:(lia)) as P2.
  pose proof (pow2_pos K ltac:(lia)) as P3. pose proof (pow2_pos (e + K) ltac:(lia)) as P4.
  pose proof (pow2_pos (g + K) ltac:(lia)) as P5.
  set (u := 2 ^ Z.max 0 (- e)) in *. set (v := 2 ^ Z.max 0 (- g)) in *. set (k := 2 ^ K) in *.
  set (x := 2 ^ (e + K)) in *. set (y := 2 ^ (g + K)) in *.
  set (p := 2 ^ Z.max 0 e) in *. set (q := 2 ^ Z.max 0 g) in *. change (2 ^ 53) with (2 * 2 ^ 52) in C.
  set (h := 2 ^ 52) in *. assert (0 < h) by reflexivity. clearbody u v k x y p q h.
  (* b x h <= a k and c k < 2 d y h *)
  assert (X : b * x * h <= a * k).
  { apply Z.mul_le_mono_pos_r with u; [assumption|].
    replace (b * x * h * u) with (b * (x * u) * h) by ring. rewrite <- Se.
    replace (b * (p * k) * h) with (b * p * h * k) by ring.
    replace (a * k * u) with (a * u * k) by ring. apply Z.mul_le_mono_nonneg_r; lia. }
  assert (Y : c * k < d * y * (2 * h)).
  { apply Z.mul_lt_mono_pos_r with v; [assumption|].
    replace (d * y * (2 * h) * v) with (d * (y * v) * (2 * h)) by ring. rewrite <- Sg.
    replace (d * (q * k) * (2 * h)) with (d * q * (2 * h) * k) by ring.
    replace (c * k * v) with (c * v * k) by ring. apply Z.mul_lt_mono_pos_r; lia. }
  assert (b * x * h * d <= c * k * b).
  { replace (c * k * b) with (a * k * d) by (replace (a * k * d) with (a * d * k) by ring; rewrite E; ring).
    apply Z.mul_le_mono_nonneg_r; lia. }
  assert (c * k * b < d * y * (2 * h) * b) by (apply Z.mul_lt_mono_pos_r; lia).
  assert (d * y * (2 * h) * b <= b * x * h * d).
  { replace (d * y * (2 * h) * b) with (y * 2 * (b * h * d)) by ring.
    replace (b * x * h * d) with (x * (b * h * d)) by ring. apply Z.mul_le_mono_nonneg_r; [|lia].
    repeat apply Z.mul_nonneg_nonneg; lia. }
  lia.
Qed.
Lemma fl_round_ratio a b c d : 0 <= a -> 0 < b -> 0 <= c -> 0 < d -> a * d = c * b -> fl_round a b = fl_round c d.
Proof.
  intros Ha Hb Hc Hd E. unfold fl_round.
  destruct (a =? 0) eqn:A; destruct (c =? 0) eqn:C; try reflexivity.
  - exfalso. apply Z.eqb_eq in A. subst. apply Z.eqb_neq in C. assert (0 < c * b) by (apply Z.mul_pos_pos; lia). lia.
  - exfalso. apply Z.eqb_eq in C. subst. apply Z.eqb_neq in A. assert (0 < a * d) by (apply Z.mul_pos_pos; lia). lia.
  - apply Z.eqb_neq in A, C.
    assert (fl_exp a b = fl_exp c d) as <-.
    { apply Z.le_antisymm; apply fl_exp_le; lia. }
    f_equal. set (e := fl_exp a b).
    pose proof (pow2_pos (Z.max 0 e) ltac:(lia)). pose proof (pow2_pos (Z.max 0 (- e)) ltac:(lia)).
    set (p := 2 ^ Z.max 0 e) in *. set (q := 2 ^ Z.max 0 (- e)) in *.
    apply rne_ratio; [apply Z.mul_pos_pos; lia|apply Z.mul_pos_pos; lia|].
    replace (a * q * (d * p)) with (a * d * (p * q)) by ring. rewrite E. ring.
Qed.
Lemma fl_den_pos f : 0 < fl_den f.
Proof. apply pow2_pos. lia. Qed.
(* the relative error of a quotient is at most 2^-53 *)
Lemma fl_round_err a b : 0 <= a -> 0 < b -> let f := fl_round a b in
  Z.abs (fl_num f * b - a * fl_den f) * 2 ^ 53 <= a * fl_den f.
Proof.
  intros Ha Hb. cbv zeta. unfold fl_round. destruct (a =? 0) eqn:A.
  { apply Z.eqb_eq in A. subst. change (fl_num (mkFl 0 0)) with 0. lia. }
  apply Z.eqb_neq in A. pose proof (fl_exp_spec a b ltac:(lia) Hb) as [L _]. cbv zeta in L.
  set (e := fl_exp a b) in *. clearbody e. unfold fl_num, fl_den. cbn [fm fe].
  pose proof (pow2_pos (Z.max 0 e) ltac:(lia)). pose proof (pow2_pos (Z.max 0 (- e)) ltac:(lia)).
  set (p := 2 ^ Z.max 0 e) in *. set (q := 2 ^ Z.max 0 (- e)) in *. clearbody p q.
  pose proof (rne_bound (a * q) (b * p) ltac:(apply Z.mul_pos_pos; lia)) as B.
  set (r := rne (a * q) (b * p)) in *. clearbody r.
  replace (r * p * b - a * q) with (r * (b * p) - a * q) by ring.
  change (2 ^ 53) with (2 * 2 ^ 52). set (h := 2 ^ 52) in *. assert (0 < h) by reflexivity. clearbody h.
  set (B' := b * p) in *. set (x := r * B' - a * q) in *.
  replace (Z.abs x * (2 * h)) with (2 * Z.abs x * h) by ring.
  apply Z.le_trans with (B' * h); [|assumption]. apply Z.mul_le_mono_nonneg_r; lia.
Qed.
(* what round(t, 3) gives *)
Lemma round3_near u : 0 <= u < 2 ^ 58 ->
  exists k, round3 (int_truediv u 1000000) = fl_round k 1000 /\ 0 <= k < 2 ^ 52 /\
    - 532 <= 1000 * k - u <= 532 /\ (u mod 1000 = 0 -> k = u / 1000).
Proof.
  intros Hu. unfold round3, int_truediv. pose proof (fl_round_err u 1000000 ltac:(lia) ltac:(lia)) as E. cbv zeta in E.
  set (f := fl_round u 1000000) in *. pose proof (fl_den_pos f) as D.
  set (n := fl_num f) in *. set (d := fl_den f) in *. clearbody n d. clear f.
  pose proof (rne_bound (n * 1000) d D) as B. set (k := rne (n * 1000) d) in *.
  assert (E' : Z.abs (n * 1000000 - u * d) <= 32 * d).
  { apply Z.mul_le_mono_pos_r with (2 ^ 53); [reflexivity|]. apply Z.le_trans with (u * d); [assumption|].
    replace (32 * d * 2 ^ 53) with (2 ^ 58 * d) by (change (2 ^ 58) with (32 * 2 ^ 53); ring).
    apply Z.mul_le_mono_nonneg_r; lia. }
  assert (K : - 532 * d <= (1000 * k - u) * d <= 532 * d).
  { replace ((1000 * k - u) * d) with (1000 * (k * d) - u * d) by ring. lia. }
  assert (K1 : -532 <= 1000 * k - u) by (apply Z.mul_le_mono_pos_r with d; lia).
  assert (K2 : 1000 * k - u <= 532) by (apply Z.mul_le_mono_pos_r with d; lia).
  exists k. split; [reflexivity|]. change (2 ^ 58) with 288230376151711744 in Hu. change (2 ^ 52) with 4503599627370496.
  split; [lia|]. split; [lia|]. lia.
Qed.
Lemma ts_of_msec_round k : 0 <= k < 2 ^ 52 -> ts_of_msec k = Ok (fl_round k 1000).
Proof.
  intros H. destruct (ts_reserialize k H) as (f & _ & E & _). rewrite E. f_equal.
  unfold ts_of_msec in E. destruct (fl_finite (fl_of_Z k)); [|discriminate].
  apply Ok_inj in E. subst f. destruct (Z.eq_dec k 0) as [->|N]; [reflexivity|].
  destruct (fl_of_Z_exact k) as (j & Hj & A & B).
  { split; [lia|]. apply Z.lt_trans with (2 ^ 52); [lia|reflexivity]. }
  unfold fl_div_Z. rewrite A, B. pose proof (pow2_pos j Hj). apply fl_round_ratio; lia.
Qed.
(* whole seconds *)
Lemma ts_seconds s : 0 <= s -> 1000 * s < 2 ^ 52 -> exists f, ts_of_msec (1000 * s) = Ok f /\ ts_msec f = Ok (1000 * s).
Proof.
  intros Hs H. destruct (ts_reserialize (1000 * s) ltac:(lia)) as (f & k & E & M & _).
  exists f. split; [assumption|]. rewrite ts_of_msec_round in E by lia. apply Ok_inj in E.
  destruct (Z.eq_dec s 0) as [->|N]; [subst f; vm_compute; reflexivity|].
  unfold ts_msec in *. destruct (fl_finite _); [|discriminate]. f_equal.
  assert (f = fl_of_Z s) as ->.
  { subst f. unfold fl_of_Z. apply fl_round_ratio; lia. }
  assert (s < 2 ^ 53) by (change (2 ^ 53) with 9007199254740992; change (2 ^ 52) with 4503599627370496 in H; lia).
  destruct (fl_of_Z_exact s ltac:(lia)) as (j & Hj & A & B).
  unfold fl_mul_Z. rewrite A, B. pose proof (pow2_pos j Hj).
  assert (fl_round (s * 2 ^ j * 1000) (2 ^ j) = fl_of_Z (1000 * s)) as ->.
  { unfold fl_of_Z. apply fl_round_ratio; lia. }
  destruct (fl_of_Z_exact (1000 * s)) as (i & Hi & C & D).
  { split; [lia|]. apply Z.lt_trans with (2 ^ 52); [lia|reflexivity]. }
  unfold fl_trunc. rewrite C, D. apply Z.div_mul. pose proof (pow2_pos i Hi). lia.
Qed.

(** * C83 *)

(* texts of the documented form are read field by field; ValueError exactly
   when a field is out of range *)
Theorem C83_text : forall other t,
  (forall x, writes t x -> valid x -> from_iso other t = Ok x) /\
  (forall x, writes t x -> ~ valid x -> from_iso other t = Err ValueError) /\
  (forall x x', writes t x -> writes t x' -> x = x') /\
  ((forall x, ~ writes t x) -> from_iso other t = other t).
Proof.
  intros other t. unfold from_iso. repeat split.
  - intros x W V. pose proof (writes_fields t x W) as (A & B & C & _). apply iso_fields_writes in W. rewrite W.
    apply dt_check_spec in V; try assumption. rewrite V. reflexivity.
  - intros x W V. pose proof (writes_fields t x W) as (A & B & C & _). apply iso_fields_writes in W. rewrite W.
    destruct (dt_check x) eqn:D; [|reflexivity]. apply dt_check_spec in D; tauto.
  - intros x x' W W'. apply iso_fields_writes in W, W'. congruence.
  - intros N. destruct (iso_fields t) as [x|] eqn:E; [|reflexivity]. apply iso_fields_writes in E. destruct (N _ E).
Qed.
Print Assumptions C83_text.

(* a valid date with an offset is one instant, by the calendar *)
Theorem C83_instant : forall t x o, writes t x -> valid x -> dt_off x = Some o ->
  exists u, instant x u /\ (forall u', instant x u' -> u' = u) /\ Z.abs u < 2 ^ 58.
Proof.
  intros t x o W V O. pose proof (writes_fields t x W) as (A & B & C & D). exists (dt_micros x o).
  split; [|split].
  - exists o, (ord (dt_date x) - EPOCH). split; [assumption|]. split; [apply days_since_reach, V|].
    unfold dt_micros, ord, dt_date. lia.
  - intros u' H. apply instant_spec in H as (o' & O' & ->). congruence.
  - destruct V as (V & V1 & V2 & V3 & V4 & V5). rewrite O in V5.
    pose proof (ord_year _ _ _ V) as Y. pose proof (dby_mono (dt_year x + 1) 10000 ltac:(lia)) as M.
    assert (1 <= dt_year x) by (apply is_date_spec in V; lia).
    pose proof (dby_mono 1 (dt_year x) ltac:(lia)) as M'.
    change (days_before_year 10000) with 3652059 in M. change (days_before_year 1) with 0 in M'.
    unfold dt_micros, EPOCH. change (2 ^ 58) with 288230376151711744. lia.
Qed.
Print Assumptions C83_instant.

Lemma parse_time_at other local t x u : writes t x -> valid x -> instant x u ->
  parse_time other local (Some t) =
    (w <- signed_tlv (u <? 0, round3 (int_truediv (Z.abs u) 1000000)) ;;
     Ok (Some (u <? 0, round3 (int_truediv (Z.abs u) 1000000), w))) /\
  exists k f m, 0 <= k /\ - 532 <= 1000 * k - Z.abs u <= 532 /\ (Z.abs u mod 1000 = 0 -> k = Z.abs u / 1000) /\
    round3 (int_truediv (Z.abs u) 1000000) = f /\ ts_of_msec k = Ok f /\ ts_msec f = Ok m /\
    (m = k \/ m = k - 1) /\ 0 <= m < 2 ^ 52 /\
    (Z.abs u mod 1000000 = 0 \/ 1099511627776000 <= Z.abs u < 2147483648000000 /\ Z.abs u mod 1000 = 0 -> m = k).
Proof.
  intros W V I. pose proof (instant_spec x u I) as (o & O & U).
  destruct (C83_instant t x o W V O) as (u' & I' & Q & B). rewrite <- (Q u I) in B.
  split.
  - unfold parse_time. destruct (C83_text other t) as (T & _). rewrite (T x W V). cbn [bind].
    unfold from_datetime, dt_timestamp. rewrite O, <- U. reflexivity.
  - destruct (round3_near (Z.abs u) ltac:(lia)) as (k & R & K & N & E). exists k.
    destruct (ts_reserialize k K) as (f & m & F & M & C). exists f, m.
    assert (M0 : 0 <= m).
    { destruct C as [->| ->]; [lia|]. destruct (Z.eq_dec k 0) as [->|]; [|lia].
      vm_compute in F. apply Ok_inj in F. subst f. vm_compute in M. congruence. }
    rewrite ts_of_msec_round in F by assumption. apply Ok_inj in F.
    repeat split; try assumption; try lia; try congruence.
    + rewrite ts_of_msec_round by assumption. congruence.
    + intros G. assert (P : 0 <= Z.abs u) by lia.
      assert (k = Z.abs u / 1000) as EK by (apply E; lia).
      destruct G as [G|[G1 G2]].
      * assert (k = 1000 * (Z.abs u / 1000000)) as EK' by lia.
        destruct (ts_seconds (Z.abs u / 1000000)) as (f' & F1 & F2); [lia|lia|].
        rewrite <- EK' in F1, F2. rewrite ts_of_msec_round in F1 by assumption. congruence.
      * destruct (ts_good_stable k K) as (f' & F1 & F2 & _).
        { right. exists 30. change (2 ^ 30) with 1073741824. change (2 ^ (30 + 1)) with 2147483648. lia. }
        rewrite ts_of_msec_round in F1 by assumption. congruence.
Qed.
Lemma expiry_sent b f m : ts_msec f = Ok m -> exists w, signed_tlv (b, f) = Ok w /\ t_type w = 6 /\ zlen (t_val w) = 8 /\
  be_value (t_val w) = (if b then - m else m) mod 2 ^ 64.
Proof.
  intros H. unfold signed_tlv. cbn [fst snd]. rewrite H. cbn [bind].
  destruct (create_uint64_intro T_EXPIRY (if b then - m else m)) as [w E]; [unfold T_EXPIRY; lia|].
  exists w. rewrite E. apply create_uint64_ok in E as (A & B & C & D). repeat split; try assumption.
  - unfold tlv_len, tlv_length in D. lia.
  - rewrite <- be_value_spec by auto. exact C.
Qed.

(* whole milliseconds: the time in the packets is that of the text, or one
   millisecond earlier; it is exact for whole seconds, and for times between
   November 2004 and January 2038 *)
Theorem C83_kept : forall other local t x u, writes t x -> valid x -> instant x u -> 0 <= u -> u mod 1000 = 0 ->
  exists f w k, parse_time other local (Some t) = Ok (Some (false, f, w)) /\
    cli_time (Some (u / 1000)) = Ok (Some f) /\ ts_tlv 6 f = Ok w /\
    be_value (t_val w) = k /\ u / 1000 - 1 <= k <= u / 1000 /\
    (u mod 1000000 = 0 \/ 1099511627776000 <= u < 2147483648000000 -> k = u / 1000).
Proof.
  intros other local t x u W V I P Z0. destruct (parse_time_at other local t x u W V I) as (E & k & f & m & K0 & N & X & R & F & M & C & B & S).
  replace (Z.abs u) with u in * by lia. specialize (X Z0). subst k. rewrite R in E.
  replace (u <? 0) with false in E by lia.
  destruct (expiry_sent false f m M) as (w & Hw & Ht & _ & Hv). rewrite Hw in E. cbn [bind] in E.
  exists f, w, m. split; [assumption|].
  assert (ts_tlv 6 f = Ok w) as T.
  { unfold ts_tlv. rewrite M. unfold signed_tlv in Hw. cbn [fst snd] in Hw. rewrite M in Hw. exact Hw. }
  split; [unfold cli_time; rewrite F; cbn [bind]; change T_EXPIRY with 6; rewrite T; reflexivity|].
  split; [assumption|].
  split; [rewrite Hv; apply Z.mod_small; split; [lia|]; apply Z.lt_trans with (2 ^ 52); [lia|reflexivity]|].
  split; [lia|]. intros G. apply S. destruct G; [left|right]; auto.
Qed.
Print Assumptions C83_kept.

(* any time since 1970: at most 1.6 ms early and 0.6 ms late *)
Theorem C83_near : forall other local t x u, writes t x -> valid x -> instant x u -> 0 <= u ->
  exists f w, parse_time other local (Some t) = Ok (Some (false, f, w)) /\ t_type w = 6 /\ zlen (t_val w) = 8 /\
    u - 1600 <= 1000 * be_value (t_val w) <= u + 600.
Proof.
  intros other local t x u W V I P. destruct (parse_time_at other local t x u W V I) as (E & k & f & m & K0 & N & X & R & F & M & C & B & S).
  replace (Z.abs u) with u in * by lia. rewrite R in E. replace (u <? 0) with false in E by lia.
  destruct (expiry_sent false f m M) as (w & Hw & Ht & Hl & Hv). rewrite Hw in E. cbn [bind] in E.
  exists f, w. split; [assumption|]. split; [assumption|]. split; [assumption|].
  rewrite Hv, Z.mod_small; [lia|]. split; [lia|]. apply Z.lt_trans with (2 ^ 52); [lia|reflexivity].
Qed.
Print Assumptions C83_near.

(* the offset only says which instant is meant *)
Theorem C83_same_instant : forall other local t t' x x' u, writes t x -> valid x -> instant x u ->
  writes t' x' -> valid x' -> instant x' u ->
  parse_time other local (Some t) = parse_time other local (Some t').
Proof.
  intros other local t t' x x' u W V I W' V' I'.
  destruct (parse_time_at other local t x u W V I) as (-> & _).
  destruct (parse_time_at other local t' x' u W' V' I') as (-> & _). reflexivity.
Qed.
Print Assumptions C83_same_instant.

(* a time before 1970 is sent as one in the far future: 2^64 milliseconds are
   580 million years *)
Theorem C83_before_1970 : forall other local t x u, writes t x -> valid x -> instant x u -> u <= - 2000 ->
  exists f w, parse_time other local (Some t) = Ok (Some (true, f, w)) /\ t_type w = 6 /\
    2 ^ 64 - 2 ^ 52 < be_value (t_val w) < 2 ^ 64 /\
    u - 600 <= 1000 * (be_value (t_val w) - 2 ^ 64) <= u + 1600.
Proof.
  intros other local t x u W V I P. destruct (parse_time_at other local t x u W V I) as (E & k & f & m & K0 & N & X & R & F & M & C & B & S).
  replace (Z.abs u) with (- u) in * by lia. rewrite R in E. replace (u <? 0) with true in E by lia.
  destruct (expiry_sent true f m M) as (w & Hw & Ht & Hl & Hv). rewrite Hw in E. cbn [bind] in E.
  exists f, w. split; [assumption|]. split; [assumption|].
  assert (be_value (t_val w) = 2 ^ 64 - m) as ->.
  { rewrite Hv. rewrite <- (Z_mod_plus_full (- m) 1), Z.mod_small; [ring|].
    change (2 ^ 52) with 4503599627370496 in B. change (2 ^ 64) with 18446744073709551616. lia. }
  lia.
Qed.
Print Assumptions C83_before_1970.

(* 1969-12-31T23:59:58+00:00 *)
Definition t_1969 : text := [49;57;54;57;45;49;50;45;51;49;84;50;51;58;53;57;58;53;56;43;48;48;58;48;48].
(* "the expiry time sent is that of the text" is false before 1970, and for
   milliseconds after 2038 *)
Theorem C83_before_1970_refuted : forall other local, exists f w,
  parse_time other local (Some t_1969) = Ok (Some (true, f, w)) /\ be_value (t_val w) = 2 ^ 64 - 2000.
Proof. intros. do 2 eexists. split; vm_compute; reflexivity. Qed.
Print Assumptions C83_before_1970_refuted.

(* 2039-01-01T00:00:00.002Z *)
Definition t_2039 : text := [50;48;51;57;45;48;49;45;48;49;84;48;48;58;48;48;58;48;48;46;48;48;50;90].
Theorem C83_millis_refuted : forall other local, exists f w,
  parse_time other local (Some t_2039) = Ok (Some (false, f, w)) /\ be_value (t_val w) = 2177452800001.
Proof. intros. do 2 eexists. split; vm_compute; reflexivity. Qed.
Print Assumptions C83_millis_refuted.

(* 2030-01-01T00:00:00, no offset: the same text is another time on another
   machine *)
Definition t_2030 : text := [50;48;51;48;45;48;49;45;48;49;84;48;48;58;48;48;58;48;48].
Theorem C83_local_refuted : forall other, exists local local' f w f' w',
  parse_time other local (Some t_2030) = Ok (Some (false, f, w)) /\
  parse_time other local' (Some t_2030) = Ok (Some (false, f', w')) /\
  be_value (t_val w') = be_value (t_val w) + 3600000.
Proof.
  intros. exists (fun x => Ok (false, int_truediv (dt_micros x 3600) 1000000)), (fun x => Ok (false, int_truediv (dt_micros x 0) 1000000)).
  do 4 eexists. split; [vm_compute; reflexivity|]. split; vm_compute; reflexivity.
Qed.
Print Assumptions C83_local_refuted.

(* the hypotheses are met *)
(* 2020-12-31T23:59:59+01:00, the example of the help with another offset *)
Definition t_help : text := [50;48;50;48;45;49;50;45;51;49;84;50;51;58;53;57;58;53;57;43;48;49;58;48;48].
Definition x_help : dtime := mkDT 2020 12 31 23 59 59 0 (Some 3600).
Example C83_help_ex : writes t_help x_help /\ valid x_help /\ instant x_help 1609455599000000.
Proof.
  assert (writes t_help x_help) as W by (apply iso_fields_writes; vm_compute; reflexivity).
  assert (valid x_help) as V by (apply dt_check_spec; vm_compute; congruence).
  split; [assumption|]. split; [assumption|].
  destruct (C83_instant _ _ 3600 W V eq_refl) as (u & I & _). pose proof (instant_spec _ _ I) as (o & O & U).
  injection O as <-. change (dt_micros x_help 3600) with 1609455599000000 in U. congruence.
Qed.
(* 2020-02-30 does not exist *)
Example C83_invalid_ex : exists x, writes (d4 2020 ++ 45 :: d2 2 ++ 45 :: d2 30) x /\ ~ valid x.
Proof.
  eexists. split; [apply w_date; lia|]. intros (V & _). apply is_date_spec in V.
  change (days_in_month _ _) with 29 in V. cbn in V. lia.
Qed.
Example C83_other_ex : forall x, ~ writes [50; 48; 50; 48] x.
Proof. intros x W. apply iso_fields_writes in W. discriminate. Qed.
Example C83_before_ex : exists x, writes t_1969 x /\ valid x /\ instant x (- 2000000).
Proof.
  exists (mkDT 1969 12 31 23 59 58 0 (Some 0)).
  assert (writes t_1969 (mkDT 1969 12 31 23 59 58 0 (Some 0))) as W by (apply iso_fields_writes; vm_compute; reflexivity).
  assert (valid (mkDT 1969 12 31 23 59 58 0 (Some 0))) as V by (apply dt_check_spec; vm_compute; congruence).
  split; [assumption|]. split; [assumption|].
  destruct (C83_instant _ _ 0 W V eq_refl) as (u & I & _). pose proof (instant_spec _ _ I) as (o & O & U).
  injection O as <-. change (dt_micros (mkDT 1969 12 31 23 59 58 0 (Some 0)) 0) with (-2000000) in U. congruence.
Qed.
(* a fraction of seven digits: 1.2345678 seconds are 234567 microseconds *)
Example C83_fraction_ex : frac_text [46; 50; 51; 52; 53; 54; 55; 56] 234567.
Proof.
  change 234567 with (dval [50; 51; 52; 53; 54; 55; 56] * 1000000 / 10 ^ Z.of_nat (length [50; 51; 52; 53; 54; 55; 56])).
  apply frac_some; [left; reflexivity|discriminate|]. unfold digit. repeat constructor; lia.
Qed.
