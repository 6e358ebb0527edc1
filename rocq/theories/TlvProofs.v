(* Lemmas about Tlv.v. *)
From Coq Require Import ZArith List Bool Lia ZifyBool ZifyNat.
From Verif Require Import Py Tlv.
Import ListNotations.
Open Scope Z_scope.
Ltac Zify.zify_post_hook ::= Z.div_mod_to_equations.

(** * Generic helpers *)

Lemma bind_ok {A B} (m : res A) (f : A -> res B) b :
  bind m f = Ok b <-> exists a, m = Ok a /\ f a = Ok b.
Proof.
  destruct m; cbn; split; intros H.
  - eauto.
  - destruct H as (a' & [= ->] & H); exact H.
  - discriminate.
  - destruct H as (a' & H & _); discriminate.
Qed.

Lemma guard_ok c e u : guard c e = Ok u <-> c = true.
Proof. destruct c, u; cbn; split; congruence. Qed.

Lemma small_text : 2 ^ 64 < 10 ^ MAX_DIGITS.
Proof. apply Z.lt_le_trans with (10 ^ 20); [reflexivity|]. apply Z.pow_le_mono_r; unfold MAX_DIGITS; lia. Qed.
Lemma int_text_ok n u : int_text n = Ok u <-> Z.abs n < 10 ^ MAX_DIGITS.
Proof.
  unfold int_text. rewrite guard_ok. unfold has_text. pose proof small_text as S.
  set (m := 10 ^ MAX_DIGITS) in *. clearbody m. destruct (Z.abs n <? 2 ^ 64) eqn:E; lia.
Qed.
Lemma int_text_err n e : int_text n = Err e <-> e = ValueError /\ 10 ^ MAX_DIGITS <= Z.abs n.
Proof.
  destruct (int_text n) as [u|e'] eqn:E.
  - pose proof (proj1 (int_text_ok n u) E) as H. split; [discriminate|]. set (m := 10 ^ MAX_DIGITS) in *. clearbody m. lia.
  - assert (e' = ValueError) as -> by (unfold int_text, guard in E; destruct (has_text n); congruence).
    assert (~ Z.abs n < 10 ^ MAX_DIGITS) as H by (intros H; apply (int_text_ok n tt) in H; congruence).
    set (m := 10 ^ MAX_DIGITS) in *. clearbody m. split; [intros [= <-]; split; [reflexivity|lia]|intros [-> _]; reflexivity].
Qed.
Lemma int_text_small n : 0 <= n < 2 ^ 64 -> int_text n = Ok tt.
Proof.
  intros H. apply int_text_ok. pose proof small_text as S. set (m := 10 ^ MAX_DIGITS) in *. clearbody m. lia.
Qed.

Ltac inv_bind H :=
  let a := fresh "a" in let E := fresh "E" in
  apply bind_ok in H; destruct H as (a & E & H).

Lemma Ok_inj {A} (a b : A) : Ok a = Ok b -> a = b.
Proof. congruence. Qed.

Ltac mon :=
  repeat match goal with
  | H : bind _ _ = Ok _ |- _ => inv_bind H; cbn beta in H
  | H : guard _ _ = Ok _ |- _ => apply guard_ok in H
  | H : Ok _ = Ok _ |- _ => apply Ok_inj in H
  | H : Err _ = Ok _ |- _ => discriminate H
  end.

Lemma is_byte_spec b : is_byte b = true <-> 0 <= b < 256.
Proof. unfold is_byte; lia. Qed.

Lemma bytes_okb_spec l : bytes_okb l = true <-> bytes_ok l.
Proof.
  unfold bytes_okb, bytes_ok. rewrite forallb_forall, Forall_forall.
  split; intros H x Hx; apply is_byte_spec, H, Hx.
Qed.

Lemma array_B_ok l a : array_B l = Ok a <-> bytes_ok l /\ a = l.
Proof.
  unfold array_B. rewrite <- bytes_okb_spec.
  destruct (bytes_okb l); split; intuition congruence.
Qed.

Lemma array_B_intro l : bytes_ok l -> array_B l = Ok l.
Proof. intros H. apply array_B_ok; auto. Qed.

Lemma array_B_err l e : array_B l = Err e <-> ~ bytes_ok l /\ e = OverflowError.
Proof.
  unfold array_B. rewrite <- bytes_okb_spec.
  destruct (bytes_okb l); split; intuition congruence.
Qed.

Lemma bytes_ok_nil : bytes_ok []. Proof. constructor. Qed.
Lemma bytes_ok_cons b l : bytes_ok (b :: l) <-> 0 <= b < 256 /\ bytes_ok l.
Proof. unfold bytes_ok. rewrite Forall_cons_iff. tauto. Qed.
Lemma bytes_ok_app a b : bytes_ok (a ++ b) <-> bytes_ok a /\ bytes_ok b.
Proof. apply Forall_app. Qed.
Lemma bytes_ok_firstn n l : bytes_ok l -> bytes_ok (firstn n l).
Proof. unfold bytes_ok. intros H. rewrite <- (firstn_skipn n l) in H. apply Forall_app in H; tauto. Qed.
Lemma bytes_ok_skipn n l : bytes_ok l -> bytes_ok (skipn n l).
Proof. unfold bytes_ok. intros H. rewrite <- (firstn_skipn n l) in H. apply Forall_app in H; tauto. Qed.
#[export] Hint Resolve bytes_ok_nil bytes_ok_firstn bytes_ok_skipn : core.

Lemma zlen_nonneg {A} (l : list A) : 0 <= zlen l.
Proof. unfold zlen; lia. Qed.
Lemma zlen_nil {A} : zlen (@nil A) = 0. Proof. reflexivity. Qed.
Lemma zlen_cons {A} (x : A) l : zlen (x :: l) = 1 + zlen l.
Proof. unfold zlen; cbn [length]; lia. Qed.
Lemma zlen_app {A} (a b : list A) : zlen (a ++ b) = zlen a + zlen b.
Proof. unfold zlen; rewrite app_length; lia. Qed.
Lemma zlen_0_nil {A} (l : list A) : zlen l = 0 -> l = [].
Proof. destruct l; unfold zlen; cbn; [auto|lia]. Qed.

Lemma zskip_app {A} (a b : list A) n : n = zlen a -> zskip n (a ++ b) = b.
Proof.
  intros ->. unfold zskip, zlen. rewrite Nat2Z.id.
  rewrite skipn_app, skipn_all, Nat.sub_diag. reflexivity.
Qed.
Lemma ztake_app {A} (a b : list A) n : n = zlen a -> ztake n (a ++ b) = a.
Proof.
  intros ->. unfold ztake, zlen. rewrite Nat2Z.id.
  rewrite firstn_app, firstn_all, Nat.sub_diag. cbn. apply app_nil_r.
Qed.
Lemma ztake_zskip {A} n (l : list A) : ztake n l ++ zskip n l = l.
Proof. apply firstn_skipn. Qed.
Lemma zlen_ztake {A} n (l : list A) : 0 <= n -> zlen (ztake n l) = Z.min n (zlen l).
Proof. intros. unfold zlen, ztake. rewrite firstn_length. lia. Qed.
Lemma zlen_zskip {A} n (l : list A) : 0 <= n -> zlen (zskip n l) = Z.max 0 (zlen l - n).
Proof. intros. unfold zlen, zskip. rewrite skipn_length. lia. Qed.

Lemma beqb_spec a b : beqb a b = true <-> a = b.
Proof.
  revert b; induction a as [|x a IH]; intros [|y b]; cbn; split; try congruence.
  - intros H. apply andb_prop in H as [H1 H2]. apply IH in H2. f_equal; [lia|auto].
  - intros [= -> ->]. rewrite Z.eqb_refl. apply IH. reflexivity.
Qed.
Lemma beqb_refl a : beqb a a = true.
Proof. apply beqb_spec; reflexivity. Qed.

(** * Shifts and masks *)

Lemma land255 n : Z.land n 255 = n mod 256.
Proof. change 255 with (Z.ones 8). rewrite Z.land_ones by lia. reflexivity. Qed.
Lemma shr n k : 0 <= k -> Z.shiftr n k = n / 2 ^ k.
Proof. intros; apply Z.shiftr_div_pow2; assumption. Qed.

Lemma tlv_encode16_eq n : tlv_encode16 n = [n / 256; n mod 256].
Proof. unfold tlv_encode16. rewrite land255, shr by lia. reflexivity. Qed.

Lemma tlv_encode16_ok n : bytes_ok (tlv_encode16 n) <-> 0 <= n < 65536.
Proof.
  rewrite tlv_encode16_eq, !bytes_ok_cons. split; intros H.
  - destruct H as (H1 & H2 & _). lia.
  - repeat split; auto; lia.
Qed.

Lemma lor_shift n b : 0 <= b < 256 -> Z.lor (Z.shiftl n 8) b = n * 256 + b.
Proof.
  intros H. rewrite Z.shiftl_mul_pow2 by lia. change (2 ^ 8) with 256.
  assert (Z.land (n * 256) b = 0) as L.
  { apply Z.bits_inj'. intros k Hk. rewrite Z.land_spec, Z.bits_0.
    destruct (Z.ltb_spec k 8).
    - change 256 with (2 ^ 8). rewrite Z.mul_pow2_bits_low by lia. reflexivity.
    - destruct (Z.eqb_spec b 0); [subst; rewrite Z.bits_0; apply andb_false_r|].
      rewrite (Z.bits_above_log2 b k); [apply andb_false_r|lia|].
      apply Z.log2_lt_pow2; [lia|].
      apply Z.lt_le_trans with (2 ^ 8); [cbn; lia|]. apply Z.pow_le_mono_r; lia. }
  rewrite Z.add_nocarry_lxor by exact L.
  rewrite <- Z.lxor_lor by exact L. reflexivity.
Qed.

(* big endian value *)
Definition be_acc (a : bytes) (n : Z) : Z := fold_left (fun n b => n * 256 + b) a n.

Lemma array_to_number_acc a n :
  bytes_ok a -> fold_left (fun n b => Z.lor (Z.shiftl n 8) b) a n = be_acc a n.
Proof.
  unfold be_acc. revert n; induction a as [|b a IH]; intros n H; cbn [fold_left]; [reflexivity|].
  apply bytes_ok_cons in H as [Hb H]. rewrite lor_shift by assumption. apply IH; assumption.
Qed.

Lemma array_to_number_be a : bytes_ok a -> array_to_number a = be_acc a 0.
Proof. intros; apply array_to_number_acc; assumption. Qed.

Lemma be_acc_app a b n : be_acc (a ++ b) n = be_acc b (be_acc a n).
Proof. unfold be_acc. apply fold_left_app. Qed.

Lemma be_acc_val a n : be_acc a n = n * 256 ^ zlen a + be_acc a 0.
Proof.
  revert n; induction a as [|b a IH]; intros n; unfold be_acc in *; cbn [fold_left].
  - rewrite zlen_nil; lia.
  - rewrite IH, (IH (0 * 256 + b)), zlen_cons, Z.pow_add_r; try lia.
    apply zlen_nonneg.
Qed.

Lemma be_acc_bound a : bytes_ok a -> 0 <= be_acc a 0 < 256 ^ zlen a.
Proof.
  induction a as [|b a IH]; intros H; [cbn; lia|].
  apply bytes_ok_cons in H as [Hb H]. specialize (IH H).
  unfold be_acc in *; cbn [fold_left].
  fold (be_acc a (0 * 256 + b)). rewrite be_acc_val. unfold be_acc.
  rewrite zlen_cons, Z.pow_add_r; [|lia|apply zlen_nonneg].
  change (256 ^ 1) with 256. nia.
Qed.

Lemma array_to_number_bound a : bytes_ok a -> 0 <= array_to_number a < 256 ^ zlen a.
Proof. intros; rewrite array_to_number_be by assumption. apply be_acc_bound; assumption. Qed.

Lemma array_to_number_2 a b : 0 <= a < 256 -> 0 <= b < 256 ->
  array_to_number [a; b] = a * 256 + b.
Proof.
  intros. rewrite array_to_number_be by (rewrite !bytes_ok_cons; auto).
  unfold be_acc; cbn [fold_left]. lia.
Qed.

(** * Tlv *)

Definition tlv_ok (t : tlv) : Prop :=
  0 <= t_type t < 65536 /\ tlv_length t < 65536 /\ bytes_ok (t_val t).

Lemma tlv_wire_ok t : bytes_ok (tlv_wire t) <-> tlv_ok t.
Proof.
  unfold tlv_wire, tlv_ok. rewrite !bytes_ok_app, !tlv_encode16_ok.
  pose proof (zlen_nonneg (t_val t)). unfold tlv_length. intuition lia.
Qed.

Lemma tlv_make_ok ty v t :
  tlv_make ty v = Ok t <-> tlv_ok (mkTlv ty v) /\ t = mkTlv ty v.
Proof.
  unfold tlv_make. rewrite <- tlv_wire_ok.
  destruct (array_B (tlv_wire (mkTlv ty v))) eqn:E; cbn.
  - apply array_B_ok in E as [E ->]. intuition congruence.
  - apply array_B_err in E as [E ->]. intuition congruence.
Qed.

Lemma tlv_make_intro ty v : tlv_ok (mkTlv ty v) -> tlv_make ty v = Ok (mkTlv ty v).
Proof. intros; apply tlv_make_ok; auto. Qed.

Lemma tlv_make_err ty v e :
  tlv_make ty v = Err e <-> ~ tlv_ok (mkTlv ty v) /\ e = OverflowError.
Proof.
  unfold tlv_make. rewrite <- tlv_wire_ok.
  destruct (array_B (tlv_wire (mkTlv ty v))) eqn:E; cbn.
  - apply array_B_ok in E as [E ->]. intuition congruence.
  - apply array_B_err in E as [E ->]. intuition congruence.
Qed.

Lemma zlen_tlv_wire t : zlen (tlv_wire t) = tlv_len t.
Proof.
  unfold tlv_wire, tlv_len, tlv_encode16, tlv_length.
  rewrite !zlen_app, !zlen_cons, !zlen_nil. lia.
Qed.

Lemma tlv_len_ge t : 4 <= tlv_len t.
Proof. unfold tlv_len, tlv_length. pose proof (zlen_nonneg (t_val t)). lia. Qed.

Lemma tlv_deserialize_wire t rest :
  tlv_ok t -> tlv_deserialize (tlv_wire t ++ rest) = Ok t.
Proof.
  intros (Ht & Hl & Hv). destruct t as [ty v]; cbn [t_type t_val] in *.
  unfold tlv_length in Hl; cbn [t_val] in Hl.
  pose proof (zlen_nonneg v) as Hv0. pose proof (zlen_nonneg rest).
  unfold tlv_deserialize.
  replace (zlen (tlv_wire (mkTlv ty v) ++ rest) <? 4) with false; cycle 1.
  { rewrite zlen_app, zlen_tlv_wire. pose proof (tlv_len_ge (mkTlv ty v)). lia. }
  unfold tlv_wire, tlv_length. cbn [t_type t_val]. rewrite !tlv_encode16_eq.
  cbn [app firstn skipn].
  rewrite !array_to_number_2 by lia.
  replace (ty / 256 * 256 + ty mod 256) with ty by lia.
  replace (zlen v / 256 * 256 + zlen v mod 256) with (zlen v) by lia.
  rewrite ztake_app by reflexivity. rewrite Z.eqb_refl.
  apply tlv_make_intro. repeat split; cbn [t_type t_val]; auto; lia.
Qed.

Lemma tlv_deserialize_inv buf t :
  bytes_ok buf -> tlv_deserialize buf = Ok t ->
  tlv_ok t /\ buf = tlv_wire t ++ zskip (tlv_len t) buf.
Proof.
  intros Hb H. unfold tlv_deserialize in H.
  destruct (zlen buf <? 4) eqn:E; [discriminate|].
  destruct buf as [|b0 [|b1 [|b2 [|b3 buf]]]]; try (unfold zlen in E; cbn in E; lia).
  cbn [firstn skipn] in H.
  rewrite !bytes_ok_cons in Hb. destruct Hb as (H0 & H1 & H2 & H3 & Hb).
  rewrite !array_to_number_2 in H by assumption.
  destruct (_ =? _) eqn:L in H; [|discriminate].
  apply tlv_make_ok in H as [Hok ->].
  split; [exact Hok|].
  unfold tlv_wire, tlv_len, tlv_length. cbn [t_type t_val].
  apply Z.eqb_eq in L.
  rewrite <- L at 1. rewrite !tlv_encode16_eq. cbn [app].
  replace ((b0 * 256 + b1) / 256) with b0 by lia.
  replace ((b0 * 256 + b1) mod 256) with b1 by lia.
  replace ((b2 * 256 + b3) / 256) with b2 by lia.
  replace ((b2 * 256 + b3) mod 256) with b3 by lia.
  do 4 f_equal. rewrite <- L.
  replace (zskip (4 + (b2 * 256 + b3)) (b0 :: b1 :: b2 :: b3 :: buf))
    with (zskip (b2 * 256 + b3) buf).
  - symmetry; apply ztake_zskip.
  - unfold zskip. replace (Z.to_nat (4 + (b2 * 256 + b3)))
      with (4 + Z.to_nat (b2 * 256 + b3))%nat by lia. reflexivity.
Qed.

Lemma tlv_deserialize_err buf e :
  bytes_ok buf -> tlv_deserialize buf = Err e -> e = ParseError.
Proof.
  intros Hb H. unfold tlv_deserialize in H.
  destruct (zlen buf <? 4) eqn:E; [congruence|].
  destruct (_ =? _) eqn:L in H; [|congruence].
  exfalso.
  destruct buf as [|b0 [|b1 [|b2 [|b3 buf]]]]; try (unfold zlen in E; cbn in E; lia).
  cbn [firstn skipn] in *.
  rewrite !bytes_ok_cons in Hb. destruct Hb as (H0 & H1 & H2 & H3 & Hb).
  rewrite !array_to_number_2 in * by assumption.
  apply tlv_make_err in H as [H _]. apply H. repeat split; cbn [t_type t_val]; try lia.
  - unfold tlv_length; cbn [t_val]. apply Z.eqb_eq in L. rewrite <- L. lia.
  - apply bytes_ok_firstn. exact Hb.
Qed.

Lemma tlv_wire_inj a b : tlv_ok a -> tlv_ok b -> tlv_wire a = tlv_wire b -> a = b.
Proof.
  intros Ha Hb H.
  pose proof (tlv_deserialize_wire a [] Ha) as Da.
  rewrite H in Da. rewrite (tlv_deserialize_wire b [] Hb) in Da. congruence.
Qed.

Lemma tlv_wire_app_inj a b x y :
  tlv_ok a -> tlv_ok b -> tlv_wire a ++ x = tlv_wire b ++ y -> a = b /\ x = y.
Proof.
  intros Ha Hb H.
  pose proof (tlv_deserialize_wire a x Ha) as Da.
  rewrite H in Da. rewrite (tlv_deserialize_wire b y Hb) in Da.
  injection Da as ->. split; [reflexivity|]. eapply app_inv_head; eauto.
Qed.

(** * Loops over a sequence of TLVs *)

Definition wires (l : list tlv) : bytes := concat (map tlv_wire l).

Lemma wires_cons t l : wires (t :: l) = tlv_wire t ++ wires l.
Proof. reflexivity. Qed.
Lemma wires_app a b : wires (a ++ b) = wires a ++ wires b.
Proof. unfold wires. rewrite map_app, concat_app. reflexivity. Qed.

Lemma wires_inj a b :
  Forall tlv_ok a -> Forall tlv_ok b -> wires a = wires b -> a = b.
Proof.
  intros Ha; revert b; induction Ha as [|x a Hx Ha IH]; intros b Hb H.
  - destruct Hb as [|y b Hy Hb]; [reflexivity|].
    rewrite wires_cons in H. apply (f_equal zlen) in H.
    rewrite zlen_app, zlen_tlv_wire in H. pose proof (tlv_len_ge y).
    pose proof (zlen_nonneg (wires b)). change (zlen (wires [])) with 0 in H. lia.
  - destruct Hb as [|y b Hy Hb].
    + rewrite wires_cons in H. apply (f_equal zlen) in H.
      rewrite zlen_app, zlen_tlv_wire in H. pose proof (tlv_len_ge x).
      pose proof (zlen_nonneg (wires a)). change (zlen (wires [])) with 0 in H. lia.
    + rewrite !wires_cons in H. apply tlv_wire_app_inj in H as [-> H]; auto.
      f_equal; auto.
Qed.

Lemma length_wires_ge l : (4 * length l <= length (wires l))%nat.
Proof.
  induction l as [|t l IH]; [cbn; lia|]. rewrite wires_cons, app_length.
  pose proof (zlen_tlv_wire t) as E. pose proof (tlv_len_ge t). unfold zlen in E.
  cbn [length]. lia.
Qed.

Lemma tlv_loop_wires {S} (step : S -> tlv -> res S) l : forall fuel s,
  Forall tlv_ok l -> (length l <= fuel)%nat ->
  tlv_loop fuel step s (wires l) = foldM step s l.
Proof.
  induction l as [|t l IH]; intros fuel s Hl Hf.
  - destruct fuel; reflexivity.
  - apply Forall_cons_iff in Hl as [Ht Hl]. rewrite wires_cons.
    assert (exists b r, tlv_wire t ++ wires l = b :: r) as (b & r & E).
    { unfold tlv_wire. rewrite tlv_encode16_eq. cbn. eauto. }
    destruct fuel as [|fuel]; [cbn in Hf; lia|].
    cbn [tlv_loop foldM]. rewrite E, <- E.
    rewrite tlv_deserialize_wire by assumption. cbn [bind].
    destruct (step s t); cbn [bind]; [|reflexivity].
    rewrite zskip_app by (symmetry; apply zlen_tlv_wire).
    apply IH; [assumption|cbn in Hf; lia].
Qed.

Lemma tlv_foreach_wires {S} (step : S -> tlv -> res S) s l :
  Forall tlv_ok l -> tlv_foreach step s (wires l) = foldM step s l.
Proof.
  intros. unfold tlv_foreach. apply tlv_loop_wires; [assumption|].
  pose proof (length_wires_ge l). lia.
Qed.

(* Whatever the buffer, if the loop succeeds the buffer was a TLV sequence. *)
Lemma tlv_loop_inv {S} (step : S -> tlv -> res S) : forall fuel s buf s',
  bytes_ok buf -> tlv_loop fuel step s buf = Ok s' ->
  exists l, Forall tlv_ok l /\ buf = wires l /\ foldM step s l = Ok s'.
Proof.
  induction fuel as [|fuel IH]; intros s buf s' Hb H.
  - destruct buf; cbn in H; [|discriminate]. injection H as <-.
    exists []. repeat split; constructor.
  - destruct buf as [|b buf].
    + cbn in H. injection H as <-. exists []. repeat split; constructor.
    + cbn [tlv_loop] in H. inv_bind H. inv_bind H.
      apply tlv_deserialize_inv in E as [Ht E]; [|assumption].
      assert (bytes_ok (zskip (tlv_len a) (b :: buf))) as Hb' by (apply bytes_ok_skipn; assumption).
      apply IH in H as (l & Hl & Hw & HF); [|exact Hb'].
      exists (a :: l). split; [constructor; assumption|]. split.
      * rewrite wires_cons, <- Hw. exact E.
      * cbn. rewrite E0. exact HF.
Qed.

Lemma tlv_foreach_inv {S} (step : S -> tlv -> res S) s buf s' :
  bytes_ok buf -> tlv_foreach step s buf = Ok s' ->
  exists l, Forall tlv_ok l /\ buf = wires l /\ foldM step s l = Ok s'.
Proof. intros; eapply tlv_loop_inv; eauto. Qed.

(* [errs m E]: if m raises, then one of the exceptions E *)
Definition errs {A} (m : res A) (E : list exn) : Prop := forall e, m = Err e -> In e E.

Lemma errs_ok {A} (a : A) E : errs (Ok a) E.
Proof. intros e H; discriminate. Qed.
Lemma errs_err {A} e E : In e E -> errs (@Err A e) E.
Proof. intros H e' [= <-]; assumption. Qed.
Lemma errs_bind {A B} (m : res A) (f : A -> res B) E :
  errs m E -> (forall a, m = Ok a -> errs (f a) E) -> errs (bind m f) E.
Proof. destruct m; cbn; intros H1 H2 e' H; [apply (H2 a eq_refl), H|apply H1; congruence]. Qed.
Lemma errs_guard c e E : In e E -> errs (guard c e) E.
Proof. destruct c; cbn; intros; [apply errs_ok|apply errs_err; assumption]. Qed.
Lemma errs_incl {A} (m : res A) E E' : errs m E -> incl E E' -> errs m E'.
Proof. intros H I e He. apply I, H, He. Qed.

Lemma tlv_make_errs ty v E : In OverflowError E -> errs (tlv_make ty v) E.
Proof. intros H e He. apply tlv_make_err in He as [_ ->]. assumption. Qed.
Lemma array_B_errs l E : In OverflowError E -> errs (array_B l) E.
Proof. intros H e He. apply array_B_err in He as [_ ->]. assumption. Qed.
Lemma tlv_deserialize_errs b E : bytes_ok b -> In ParseError E -> errs (tlv_deserialize b) E.
Proof. intros Hb H e He. apply tlv_deserialize_err in He; [subst; assumption|assumption]. Qed.

(* Each round of the loop consumes at least four bytes, so a quarter of the
   length bounds the number of rounds; the only exceptions are those of the
   loop body and ParseError. *)
Lemma tlv_loop_errs {S} (step : S -> tlv -> res S) E : In ParseError E ->
  (forall s t, tlv_ok t -> errs (step s t) E) ->
  forall fuel s buf, bytes_ok buf -> (length buf <= 4 * fuel)%nat ->
  errs (tlv_loop fuel step s buf) E.
Proof.
  intros HP Hs. induction fuel as [|fuel IH]; intros s buf Hb Hl.
  - destruct buf; [apply errs_ok|cbn in Hl; lia].
  - destruct buf as [|b buf]; [apply errs_ok|]. cbn [tlv_loop].
    apply errs_bind; [apply tlv_deserialize_errs; assumption|]. intros t Et.
    pose proof (tlv_deserialize_inv _ _ Hb Et) as [Ho _].
    apply errs_bind; [apply Hs; assumption|]. intros s' _. apply IH; [apply bytes_ok_skipn; assumption|].
    unfold zskip. rewrite skipn_length. pose proof (tlv_len_ge t). lia.
Qed.

Lemma tlv_foreach_errs {S} (step : S -> tlv -> res S) E s buf : In ParseError E ->
  (forall s t, tlv_ok t -> errs (step s t) E) -> bytes_ok buf ->
  errs (tlv_foreach step s buf) E.
Proof. intros. apply tlv_loop_errs; auto. lia. Qed.

(* more fuel changes nothing *)
Lemma tlv_loop_fuel {S} (step : S -> tlv -> res S) :
  forall f1 f2 s buf, bytes_ok buf -> (length buf <= 4 * f1)%nat -> (length buf <= 4 * f2)%nat ->
  tlv_loop f1 step s buf = tlv_loop f2 step s buf.
Proof.
  induction f1 as [|f1 IH]; intros f2 s buf Hb H1 H2.
  - destruct buf; [destruct f2; reflexivity|cbn in H1; lia].
  - destruct buf as [|b buf]; [destruct f2; reflexivity|].
    destruct f2 as [|f2]; [cbn in H2; lia|]. cbn [tlv_loop].
    destruct (tlv_deserialize (b :: buf)) as [t|e] eqn:Et; cbn [bind]; [|reflexivity].
    destruct (step s t) as [s'|e]; cbn [bind]; [|reflexivity].
    apply IH; [apply bytes_ok_skipn; assumption| |];
      unfold zskip; rewrite skipn_length; pose proof (tlv_len_ge t); lia.
Qed.

Lemma foldM_app {A S} (f : S -> A -> res S) l1 l2 s :
  foldM f s (l1 ++ l2) = (s' <- foldM f s l1 ;; foldM f s' l2).
Proof.
  revert s; induction l1 as [|x l1 IH]; intros s; cbn; [reflexivity|].
  destruct (f s x); cbn; [apply IH|reflexivity].
Qed.

(** * Integers *)

Definition be_num (a : bytes) : Z := be_acc a 0.

Lemma mod_byte n : 0 <= n mod 256 < 256.
Proof. lia. Qed.

Ltac to_div :=
  repeat rewrite land255; rewrite ?shr by lia;
  change (2 ^ 8) with 256; change (2 ^ 16) with 65536;
  change (2 ^ 24) with 16777216; change (2 ^ 32) with 4294967296;
  change (2 ^ 40) with 1099511627776; change (2 ^ 48) with 281474976710656;
  change (2 ^ 56) with 72057594037927936.

(* the byte list of number_to_array in terms of div and mod *)
Lemma number_to_array_ok n a :
  number_to_array n = Ok a ->
  0 <= n /\ bytes_ok a /\ array_to_number a = n mod 2 ^ 64 /\
  zlen a = (if n <? 2 ^ 8 then 1 else if n <? 2 ^ 16 then 2 else
            if n <? 2 ^ 24 then 3 else if n <? 2 ^ 32 then 4 else 8).
Proof.
  unfold number_to_array. intros H. apply array_B_ok in H as [Hb ->].
  split; [|split; [exact Hb|]].
  - destruct (n <? 0x100) eqn:E1.
    + apply bytes_ok_cons in Hb. lia.
    + lia.
  - rewrite array_to_number_be by exact Hb.
    change (2 ^ 64) with 18446744073709551616. change (2 ^ 32) with 4294967296.
    change (2 ^ 24) with 16777216. change (2 ^ 16) with 65536. change (2 ^ 8) with 256.
    change 0x100 with 256 in *. change 0x10000 with 65536 in *.
    change 0x1000000 with 16777216 in *. change 0x100000000 with 4294967296 in *.
    destruct (n <? 256) eqn:E1.
    { apply bytes_ok_cons in Hb. split; [|reflexivity].
      unfold be_acc; cbn [fold_left]. lia. }
    destruct (n <? 65536) eqn:E2.
    { split; [|reflexivity]. to_div. unfold be_acc; cbn [fold_left]. lia. }
    destruct (n <? 16777216) eqn:E3.
    { split; [|reflexivity]. to_div. unfold be_acc; cbn [fold_left]. lia. }
    destruct (n <? 4294967296) eqn:E4.
    { split; [|reflexivity]. to_div. unfold be_acc; cbn [fold_left]. lia. }
    split; [|reflexivity]. to_div. unfold be_acc; cbn [fold_left].
    clear Hb. lia.
Qed.

Lemma number_to_array_intro n : 0 <= n -> exists a, number_to_array n = Ok a.
Proof.
  intros Hn. unfold number_to_array.
  eexists. apply array_B_intro.
  change 0x100 with 256 in *. change 0x10000 with 65536 in *.
  change 0x1000000 with 16777216 in *. change 0x100000000 with 4294967296 in *.
  destruct (n <? 256) eqn:E1; [|destruct (n <? 65536) eqn:E2;
    [|destruct (n <? 16777216) eqn:E3; [|destruct (n <? 4294967296) eqn:E4]]];
    to_div; rewrite ?bytes_ok_cons; repeat split; auto;
    try apply mod_byte; lia.
Qed.

Lemma number_to_array_neg n : n < 0 -> number_to_array n = Err OverflowError.
Proof.
  intros Hn. unfold number_to_array. replace (n <? 0x100) with true by lia.
  apply array_B_err. split; [|reflexivity]. rewrite bytes_ok_cons. lia.
Qed.

Lemma int_tlv_ok ty n t :
  int_tlv ty n = Ok t ->
  tlv_ok t /\ t_type t = ty /\ 0 <= n /\ value_as_number t = n mod 2 ^ 64.
Proof.
  unfold int_tlv, create_varint. intros H. mon.
  apply tlv_make_ok in H as [Hok ->].
  apply number_to_array_ok in E as (H0 & Hb & Hv & Hl).
  repeat split; try apply Hok; auto.
Qed.

Lemma int_tlv_intro ty n : 0 <= ty < 65536 -> 0 <= n -> exists t, int_tlv ty n = Ok t.
Proof.
  intros Ht Hn. destruct (number_to_array_intro n Hn) as [a Ha].
  exists (mkTlv ty a). unfold int_tlv, create_varint. rewrite Ha. cbn [bind].
  apply tlv_make_intro. apply number_to_array_ok in Ha as (_ & Hb & _ & Hl).
  repeat split; cbn [t_type t_val]; auto; try lia. unfold tlv_length; cbn [t_val]. rewrite Hl.
  repeat destruct (_ <? _); lia.
Qed.

Lemma int_roundtrip ty n t :
  0 <= n < 2 ^ 64 -> int_tlv ty n = Ok t -> int_parse ty t = Ok n.
Proof.
  intros Hn H. pose proof H as H'. apply int_tlv_ok in H' as (Hok & Hty & Hp & Hv).
  unfold int_parse. rewrite Hty, Z.eqb_refl. cbn [guard bind].
  rewrite Hv, Z.mod_small by assumption. rewrite H. reflexivity.
Qed.

Lemma int_parse_err ty t e :
  0 <= ty < 65536 -> bytes_ok (t_val t) ->
  int_parse ty t = Err e -> t_type t <> ty /\ e = CannotParseError.
Proof.
  intros Hty Hb H. unfold int_parse in H.
  destruct (t_type t =? ty) eqn:E; cbn in H.
  - exfalso. destruct (int_tlv_intro ty (value_as_number t) Hty) as [t' Ht'].
    + apply array_to_number_bound; assumption.
    + rewrite Ht' in H. discriminate.
  - injection H as <-. split; [lia|reflexivity].
Qed.

Lemma octet_roundtrip ty v t : octet_tlv ty v = Ok t -> octet_parse ty t = Ok v.
Proof.
  intros H. unfold octet_parse. unfold octet_tlv in *.
  pose proof H as H'. apply tlv_make_ok in H' as [Hok ->]. cbn [t_type t_val].
  rewrite Z.eqb_refl. cbn [guard bind]. rewrite H. reflexivity.
Qed.

(** * The field table parser *)

Lemma lookup_not_in {V} ty (vs : list (Z * V)) :
  ~ In ty (map fst vs) <-> lookup ty vs = None.
Proof.
  induction vs as [|(k, v) vs IH]; cbn; [tauto|].
  destruct (Z.eqb_spec k ty); split; intros H; try tauto; try congruence.
Qed.

Section Auto.
Context {V : Type}.
Variable table : Z -> option (tlv -> res V).

Lemma auto_fields : forall (l : list tlv) (vs out : list (Z * V)),
  Forall2 (fun t p => exists f, table (t_type t) = Some f /\ fst p = t_type t /\ f t = Ok (snd p)) l out ->
  NoDup (map t_type l) ->
  (forall t, In t l -> lookup (t_type t) vs = None) ->
  foldM (auto_step table true) vs l = Ok (rev out ++ vs).
Proof.
  induction l as [|t l IH]; intros vs out H2 Hnd Hfresh.
  - inversion H2; subst. reflexivity.
  - inversion H2 as [|? [k v] ? out' (f & Ht & Hk & Hf) H2']; subst. cbn in Hk, Hf; subst k.
    cbn [map] in Hnd. apply NoDup_cons_iff in Hnd as [Hni Hnd].
    cbn [foldM]. unfold auto_step at 1. rewrite Ht, (Hfresh t (or_introl eq_refl)), Hf.
    cbn [bind]. rewrite (IH _ out'); auto.
    + cbn [rev]. rewrite <- app_assoc. reflexivity.
    + intros t' Hin. cbn [lookup]. destruct (Z.eqb_spec (t_type t) (t_type t')) as [e|]; [|apply Hfresh; right; assumption].
      exfalso. apply Hni. rewrite e. apply in_map. assumption.
Qed.

End Auto.

Lemma lookup_rev_app {V} ty (l vs : list (Z * V)) :
  NoDup (map fst l) -> (lookup ty vs = None) ->
  lookup ty (rev l ++ vs) = lookup ty l.
Proof.
  revert vs; induction l as [|(k, v) l IH]; intros vs Hnd Hvs; cbn; [assumption|].
  cbn in Hnd. apply NoDup_cons_iff in Hnd as [Hni Hnd].
  rewrite <- app_assoc. cbn.
  destruct (Z.eqb_spec k ty) as [->|].
  - assert (lookup ty l = None) as HL by (apply lookup_not_in; exact Hni).
    clear IH Hnd. assert (forall vs', lookup ty (rev l ++ vs') = lookup ty vs') as HH.
    { clear Hvs Hni. revert HL; induction l as [|(k', v') l IH]; intros HL vs'; [reflexivity|].
      cbn in HL |- *. destruct (Z.eqb_spec k' ty); [discriminate|].
      rewrite <- app_assoc, IH by assumption. cbn. destruct (Z.eqb_spec k' ty); [contradiction|reflexivity]. }
    rewrite HH. cbn. rewrite Z.eqb_refl. reflexivity.
  - rewrite IH; auto. cbn. destruct (Z.eqb_spec k ty); [contradiction|assumption].
Qed.

Lemma number_to_array_errs n E : In OverflowError E -> errs (number_to_array n) E.
Proof. intros. unfold number_to_array. apply array_B_errs; assumption. Qed.
Lemma int_tlv_errs ty n E : In OverflowError E -> errs (int_tlv ty n) E.
Proof.
  intros. apply errs_bind; [apply number_to_array_errs; assumption|].
  intros; apply tlv_make_errs; assumption.
Qed.
Lemma int_parse_errs ty t E : In CannotParseError E -> In OverflowError E -> errs (int_parse ty t) E.
Proof.
  intros. apply errs_bind; [apply errs_guard; assumption|]. intros _ _.
  apply errs_bind; [apply int_tlv_errs; assumption|]. intros; apply errs_ok.
Qed.
Lemma octet_parse_errs ty t E : In CannotParseError E -> In OverflowError E -> errs (octet_parse ty t) E.
Proof.
  intros. apply errs_bind; [apply errs_guard; assumption|]. intros _ _.
  apply errs_bind; [apply tlv_make_errs; assumption|]. intros; apply errs_ok.
Qed.
