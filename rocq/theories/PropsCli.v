(* C73: the texts of the command line mean what they say. *)
From Coq Require Import ZArith List Bool Lia ZifyBool.
From Coq Require String Ascii.
From Verif Require Import Py Float Spec Tlv TlvProofs Core CoreProofs Flic Crypto Tree Store StoreProofs Uri Apps Cli.
From Verif Require PropsGraph PropsUri.
Import ListNotations.
Open Scope Z_scope.

(* ---------------- Specification ---------------- *)

(* the characters for a digit: 0-9, a-z, A-Z *)
Inductive digit_char : Z -> Z -> Prop :=
| Decimal v : 0 <= v <= 9 -> digit_char v (48 + v)
| Small v : 10 <= v <= 35 -> digit_char v (97 + (v - 10))
| Capital v : 10 <= v <= 35 -> digit_char v (65 + (v - 10)).
Definition blank (c : Z) : Prop := c = 32 \/ 9 <= c <= 13.

(* A text that spells bytes in hexadecimal: two digits each, blanks before,
   between and after the pairs. *)
Inductive spells : text -> bytes -> Prop :=
| SNil : spells [] []
| SBlank c t b : blank c -> spells t b -> spells (c :: t) b
| SPair x y u v t b : digit_char u x -> digit_char v y -> u < 16 -> v < 16 -> spells t b ->
    spells (x :: y :: t) (u * 16 + v :: b).

(* Digits of a base with single underscores between them *)
Inductive digit_text (base : Z) : text -> list Z -> Prop :=
| DOne c v : digit_char v c -> v < base -> digit_text base [c] [v]
| DMore c v t l : digit_char v c -> v < base -> digit_text base t l -> digit_text base (c :: t) (v :: l)
| DUnder c v t l : digit_char v c -> v < base -> digit_text base t l -> digit_text base (c :: 95 :: t) (v :: l).
(* the number with these digits, least significant last *)
Fixpoint value_of (base : Z) (l : list Z) : Z :=
  match l with [] => 0 | d :: l => d * base ^ zlen l + value_of base l end.
(* 0x 0X 0o 0O 0b 0B *)
Definition base_prefix (p : text) (base : Z) : Prop :=
  (p = [48; 120] \/ p = [48; 88]) /\ base = 16 \/
  (p = [48; 111] \/ p = [48; 79]) /\ base = 8 \/
  (p = [48; 98] \/ p = [48; 66]) /\ base = 2.
(* Python's integer literals: decimal without leading zeros, zeros, or with a
   prefix, which an underscore may follow *)
Inductive literal : text -> Z -> Prop :=
| LDecimal t d l : digit_text 10 t (d :: l) -> d <> 0 -> zlen (d :: l) <= 4300 -> literal t (value_of 10 (d :: l))
| LZeros t l : digit_text 10 t l -> Forall (fun d => d = 0) l -> zlen l <= 4300 -> literal t 0
| LPrefix p base u t l : base_prefix p base -> u = [] \/ u = [95] -> digit_text base t l ->
    literal (p ++ u ++ t) (value_of base l).
(* a number in decimal, leading zeros allowed *)
Inductive decimal_text : text -> Z -> Prop :=
| DText t l : digit_text 10 t l -> zlen l <= 4300 -> decimal_text t (value_of 10 l).
(* blanks around, a sign in front *)
Inductive with_sign (lit : text -> Z -> Prop) : text -> Z -> Prop :=
| WSigned a s t b n m : Forall blank a -> Forall blank b -> lit t n ->
    (s = [] \/ s = [43]) /\ m = n \/ s = [45] /\ m = - n -> with_sign lit (a ++ s ++ t ++ b) m.

(* ---------------- Digits ---------------- *)

Lemma space_spec c : space c = true <-> blank c.
Proof. unfold space, blank. lia. Qed.
Lemma digit_value_spec c v : digit_value c = Some v <-> digit_char v c.
Proof.
  unfold digit_value. split.
  - repeat match goal with |- context [if ?x then _ else _] => destruct x eqn:? end; intros [= <-].
    + replace c with (48 + (c - 48)) at 2 by lia. constructor. lia.
    + replace c with (97 + (c - 87 - 10)) at 2 by lia. constructor. lia.
    + replace c with (65 + (c - 55 - 10)) at 2 by lia. constructor. lia.
  - intros H. destruct H;
      repeat match goal with |- context [if ?x then _ else _] => destruct x eqn:? end; try f_equal; lia.
Qed.
Lemma digit_spec base c v : digit base c = Some v <-> digit_char v c /\ v < base.
Proof.
  unfold digit. rewrite <- digit_value_spec. destruct (digit_value c) as [w|]; [|split; [discriminate|now intros [? _]]].
  destruct (w <? base) eqn:E; split; intros H.
  - injection H as <-. split; [reflexivity|lia].
  - destruct H as [[= <-] _]. reflexivity.
  - discriminate.
  - destruct H as [[= <-] ?]. lia.
Qed.
Lemma digit_char_range v c : digit_char v c -> 0 <= v <= 35 /\ 48 <= c <= 122 /\ c <> 95 /\ ~ blank c.
Proof. unfold blank. destruct 1; lia. Qed.
Lemma digit_char_fun v w c : digit_char v c -> digit_char w c -> v = w.
Proof. intros A B. apply digit_value_spec in A, B. congruence. Qed.

(* ---------------- bytes.fromhex ---------------- *)

Lemma from_hex_spec n : forall t b, (length t <= n)%nat -> from_hex t = Ok b <-> spells t b.
Proof.
  induction n as [|n IH]; intros [|c t] b L; cbn [length] in L; try lia; cbn [from_hex].
  1, 2: split; [intros [= <-]; constructor|inversion 1; reflexivity].
  destruct (space c) eqn:S.
  - apply space_spec in S. rewrite IH by lia. split; [now constructor|].
    inversion 1; subst; [assumption|]. exfalso. destruct (digit_char_range _ _ H2) as (_ & _ & _ & X). now apply X.
  - split.
    + destruct (digit 16 c) as [u|] eqn:U; [|discriminate]. apply digit_spec in U as [U1 U2].
      destruct t as [|d t]; [discriminate|]. destruct (digit 16 d) as [v|] eqn:V; [|discriminate].
      apply digit_spec in V as [V1 V2]. intros H. apply bind_ok in H as (x & E & H). apply Ok_inj in H. subst b.
      apply IH in E; [|cbn [length] in L; lia]. now constructor.
    + inversion 1 as [|? ? ? X|? y u v t' b' U V U1 V1 T]; subst.
      * apply space_spec in X. congruence.
      * rewrite (proj2 (digit_spec 16 c u) (conj U U1)). rewrite (proj2 (digit_spec 16 y v) (conj V V1)).
        apply IH in T; [|cbn [length] in L; lia]. rewrite T. reflexivity.
Qed.
Lemma from_hex_err t e : from_hex t = Err e -> e = ValueError.
Proof.
  assert (forall n t, (length t <= n)%nat -> from_hex t = Err e -> e = ValueError) as H; [|now apply (H (length t))].
  clear t. induction n as [|n IH]; intros [|c t] L; cbn [length] in L; try lia; cbn [from_hex]; try discriminate.
  destruct (space c); [apply IH; lia|]. destruct (digit 16 c); [|congruence]. destruct t as [|d t]; [congruence|].
  destruct (digit 16 d); [|congruence]. intros H. destruct (from_hex t) eqn:E; [discriminate|].
  cbn [bind] in H. injection H as <-. apply (IH t); [cbn [length] in L; lia|congruence].
Qed.

(* ---------------- Integers ---------------- *)

Lemma digits_spec base t : forall l, digits base true t = Some l <-> digit_text base t l.
Proof.
  assert (forall n t l, (length t <= n)%nat -> digits base true t = Some l <-> digit_text base t l) as H; [|intros l; now apply (H (length t))].
  clear t. induction n as [|n IH]; intros [|c t] l L; cbn [length] in L; try lia; cbn [digits].
  1, 2: split; [discriminate|inversion 1].
  split.
  - destruct (c =? 95); [discriminate|]. destruct (digit base c) as [v|] eqn:D; [|discriminate]. apply digit_spec in D as [D1 D2].
    destruct (digits base false t) as [m|] eqn:E; [|discriminate]. intros [= <-].
    destruct t as [|d t]; cbn [digits] in E; [injection E as <-; now constructor|].
    destruct (d =? 95) eqn:U.
    + apply Z.eqb_eq in U. subst d. apply IH in E; [|cbn [length] in L; lia]. now constructor.
    + assert (digits base true (d :: t) = Some m) as E' by (cbn [digits]; now rewrite U).
      apply IH in E'; [|lia]. now constructor.
  - assert (forall v, digit_char v c -> v < base -> (c =? 95) = false /\ digit base c = Some v) as D.
    { intros v D1 D2. destruct (digit_char_range _ _ D1) as (_ & _ & X & _). split; [now apply Z.eqb_neq|]. now apply digit_spec. }
    inversion 1 as [? v D1 D2|? v t' m D1 D2 M|? v t' m D1 D2 M]; subst; destruct (D v D1 D2) as [-> ->].
    + reflexivity.
    + apply IH in M; [|lia]. destruct t as [|d t]; [discriminate|]. cbn [digits] in M |- *.
      destruct (d =? 95); [discriminate|]. destruct (digit base d); [|discriminate]. destruct (digits base false t); [|discriminate]. now injection M as <-.
    + apply IH in M; [|cbn [length] in L; lia]. cbn [digits]. change (95 =? 95) with true. cbn iota. now rewrite M.
Qed.
Lemma number_spec base l : number base l = value_of base l.
Proof.
  unfold number. enough (forall l a, fold_left (fun n d => n * base + d) l a = a * base ^ zlen l + value_of base l) as H by (rewrite H; lia).
  clear. induction l as [|d l IH]; intros a; cbn [fold_left value_of]; [change (zlen []) with 0; lia|].
  rewrite IH. rewrite zlen_cons, Z.pow_add_r by (pose proof (zlen_nonneg l); lia). lia.
Qed.
Lemma digit_text_nonempty base t l : digit_text base t l -> exists c v t' l', t = c :: t' /\ l = v :: l' /\ digit_char v c.
Proof. inversion 1; subst; eauto 8. Qed.
Lemma digit_text_digits base t l : digit_text base t l -> Forall (fun d => 0 <= d) l.
Proof. induction 1; constructor; try constructor; auto; match goal with H : digit_char _ _ |- _ => apply digit_char_range in H; lia end. Qed.
Lemma value_of_nonneg base l : 0 < base -> Forall (fun d => 0 <= d) l -> 0 <= value_of base l.
Proof. intros B. induction 1; cbn [value_of]; [lia|]. pose proof (Z.pow_nonneg base (zlen l)). nia. Qed.
Lemma value_of_zero base l : 0 < base -> Forall (fun d => 0 <= d) l -> value_of base l = 0 <-> Forall (fun d => d = 0) l.
Proof.
  intros B. induction 1 as [|d l D F IH]; cbn [value_of]; [split; constructor|].
  pose proof (Z.pow_pos_nonneg base (zlen l) B (zlen_nonneg l)). pose proof (value_of_nonneg base l B F).
  split.
  - intros E. assert (d = 0) by nia. subst d. constructor; [reflexivity|]. apply IH. lia.
  - inversion 1; subst. apply IH in H5. lia.
Qed.
Lemma skip_underscore_spec base t l : digit_text base (skip_underscore t) l <->
  exists u t', t = u ++ t' /\ (u = [] \/ u = [95]) /\ digit_text base t' l.
Proof.
  split.
  - intros H. destruct t as [|c t]; [exists [], []; auto|]. cbn [skip_underscore] in H. destruct (c =? 95) eqn:E.
    + apply Z.eqb_eq in E. subst c. exists [95], t. auto.
    + exists [], (c :: t). auto.
  - intros (u & t' & -> & [-> | ->] & H); [|exact H]. cbn [app].
    destruct (digit_text_nonempty _ _ _ H) as (c & v & t'' & l' & -> & -> & D). apply digit_char_range in D as (_ & _ & D & _).
    cbn [skip_underscore]. apply Z.eqb_neq in D. now rewrite D.
Qed.
Lemma prefixed_spec base t n : prefixed base t = Ok n <->
  exists u t' l, t = u ++ t' /\ (u = [] \/ u = [95]) /\ digit_text base t' l /\ n = value_of base l.
Proof.
  unfold prefixed. split.
  - destruct (digits base true (skip_underscore t)) as [l|] eqn:D; [|discriminate]. intros H. apply Ok_inj in H. subst n.
    apply digits_spec, skip_underscore_spec in D as (u & t' & A & B & C). exists u, t', l. rewrite number_spec. auto.
  - intros (u & t' & l & A & B & C & ->).
    assert (digits base true (skip_underscore t) = Some l) as -> by (apply digits_spec, skip_underscore_spec; eauto).
    now rewrite number_spec.
Qed.
Lemma unsigned10_spec t n : unsigned10 t = Ok n <-> decimal_text t n.
Proof.
  unfold unsigned10, decimal_of. split.
  - destruct (digits 10 true t) as [l|] eqn:D; [|discriminate]. intros H. apply bind_ok in H as ([] & G & H). apply guard_ok in G.
    apply Ok_inj in H. subst n. rewrite number_spec. constructor; [now apply digits_spec|]. unfold MAX_DIGITS in G. lia.
  - destruct 1 as [t l D L]. apply digits_spec in D. rewrite D. unfold guard, MAX_DIGITS. replace (zlen l <=? 4300) with true by lia.
    cbn [bind]. now rewrite number_spec.
Qed.
(* decimal literals *)
Inductive plain_literal : text -> Z -> Prop :=
| PDecimal t d l : digit_text 10 t (d :: l) -> d <> 0 -> zlen (d :: l) <= 4300 -> plain_literal t (value_of 10 (d :: l))
| PZeros t l : digit_text 10 t l -> Forall (fun d => d = 0) l -> zlen l <= 4300 -> plain_literal t 0.
Definition plain (t : text) : res Z :=
  match digits 10 true t with
  | Some l =>
    n <- decimal_of l ;;
    _ <- guard (negb (match t with z :: _ => z =? 48 | [] => false end) || (n =? 0)) ValueError ;;
    Ok n
  | None => Err ValueError
  end.
Lemma digit_zero v c : digit_char v c -> (c =? 48) = (v =? 0).
Proof. destruct 1; lia. Qed.
Lemma plain_spec t n : plain t = Ok n <-> plain_literal t n.
Proof.
  unfold plain, decimal_of. split.
  - destruct (digits 10 true t) as [l|] eqn:D; [|discriminate]. apply digits_spec in D. intros H. apply bind_ok in H as (m & G & H).
    apply bind_ok in G as ([] & G & E). apply guard_ok in G. unfold MAX_DIGITS in G. apply Ok_inj in E. rewrite number_spec in E.
    apply bind_ok in H as ([] & Q & H). apply guard_ok in Q. apply Ok_inj in H. subst n m.
    destruct (digit_text_nonempty _ _ _ D) as (c & v & t' & l' & -> & -> & V). rewrite (digit_zero _ _ V) in Q.
    destruct (v =? 0) eqn:Z.
    + cbn [negb orb] in Q. apply Z.eqb_eq in Q. rewrite Q. eapply PZeros; [exact D| |lia].
      apply (value_of_zero 10); [lia|eapply digit_text_digits, D|exact Q].
    + constructor; [exact D|lia|lia].
  - intros H. assert (exists l, digit_text 10 t l /\ zlen l <= 4300 /\ n = value_of 10 l /\ (n = 0 \/ hd 0 l <> 0)) as (l & D & L & -> & N).
    { destruct H as [t d l D N L|t l D F L]; [exists (d :: l); auto|]. exists l. repeat split; auto. symmetry.
      apply value_of_zero; [lia|eapply digit_text_digits, D|exact F]. }
    rewrite (proj2 (digits_spec 10 t l) D). unfold guard, MAX_DIGITS. replace (zlen l <=? 4300) with true by lia. cbn [bind].
    rewrite number_spec. destruct (digit_text_nonempty _ _ _ D) as (c & v & t' & l' & -> & -> & V). rewrite (digit_zero _ _ V). cbn [hd] in N.
    replace (negb (v =? 0) || (value_of 10 (v :: l') =? 0)) with true by lia. reflexivity.
Qed.
Lemma unsigned0_cases t : unsigned0 t = plain t /\ (forall p base r, base_prefix p base -> t <> p ++ r) \/
  exists p base r, base_prefix p base /\ t = p ++ r /\ unsigned0 t = prefixed base r.
Proof.
  unfold unsigned0. fold (plain t). destruct t as [|z [|c r]].
  1, 2: left; split; [reflexivity|]; intros p base r' B E; unfold base_prefix in B; intuition (subst; discriminate).
  destruct (z =? 48) eqn:Z; cbn [negb].
  2:{ left. split; [reflexivity|]. intros p base r' B E. unfold base_prefix in B. intuition (subst; injection E as -> _; lia). }
  apply Z.eqb_eq in Z. subst z.
  destruct ((c =? 120) || (c =? 88)) eqn:C1.
  { right. exists [48; c], 16, r. split; [|auto]. left. split; [|reflexivity]. assert (c = 120 \/ c = 88) as [-> | ->] by lia; auto. }
  destruct ((c =? 111) || (c =? 79)) eqn:C2.
  { right. exists [48; c], 8, r. split; [|auto]. right; left. split; [|reflexivity]. assert (c = 111 \/ c = 79) as [-> | ->] by lia; auto. }
  destruct ((c =? 98) || (c =? 66)) eqn:C3.
  { right. exists [48; c], 2, r. split; [|auto]. right; right. split; [|reflexivity]. assert (c = 98 \/ c = 66) as [-> | ->] by lia; auto. }
  left. split; [reflexivity|]. intros p base r' B E. unfold base_prefix in B. intuition (subst; injection E as -> _; lia).
Qed.
Lemma base_prefix_fun p base p' base' r r' : base_prefix p base -> base_prefix p' base' -> p ++ r = p' ++ r' -> base = base' /\ r = r'.
Proof. unfold base_prefix. intros A B E. intuition (subst; injection E; intros; subst; try discriminate; auto). Qed.
Lemma plain_no_prefix t n p base r : plain_literal t n -> base_prefix p base -> t <> p ++ r.
Proof.
  intros H B E. assert (exists l, digit_text 10 t l) as (l & D) by (destruct H; eauto). clear H.
  assert (exists c r', p ++ r = 48 :: c :: r' /\ (c = 120 \/ c = 88 \/ c = 111 \/ c = 79 \/ c = 98 \/ c = 66)) as (c & r' & E' & C).
  { unfold base_prefix in B. intuition (subst p; cbn [app]; eauto 12). }
  rewrite E' in E. subst t. clear B E'.
  assert (forall w l, digit_text 10 (c :: w) l -> False) as X.
  { intros w l' X. inversion X as [? v Dv V|? v t' m Dv V _|? v t' m Dv V _]; subst; destruct Dv; lia. }
  inversion D as [|? v t' m Dv V M|? v t' m Dv V M]; subst; [now apply (X _ _ M)|lia].
Qed.
Lemma unsigned0_spec t n : unsigned0 t = Ok n <-> literal t n.
Proof.
  destruct (unsigned0_cases t) as [(-> & N)|(p & base & r & B & -> & ->)].
  - rewrite plain_spec. split.
    + destruct 1; econstructor; eassumption.
    + destruct 1 as [t d l D Z L|t l D Z L|p base u t l B U D]; [econstructor; eassumption..|]. exfalso. now apply (N p base (u ++ t) B).
  - rewrite prefixed_spec. split.
    + intros (u & t' & l & -> & U & D & ->). now constructor.
    + intros H. remember (p ++ r) as w eqn:W. destruct H as [t d l D Z L|t l D Z L|p' base' u t l B' U D].
      * exfalso. eapply (plain_no_prefix t); [eapply PDecimal; eassumption|exact B|exact W].
      * exfalso. eapply (plain_no_prefix t); [eapply PZeros; eassumption|exact B|exact W].
      * destruct (base_prefix_fun _ _ _ _ _ _ B' B W) as [-> <-]. exists u, t, l. auto.
Qed.

(* ---------------- Blanks and signs ---------------- *)

Lemma skip_space_spec t : exists a, Forall blank a /\ t = a ++ skip_space t /\ (forall c r, skip_space t = c :: r -> ~ blank c).
Proof.
  induction t as [|c t (a & A & E & N)]; cbn [skip_space].
  - exists []. repeat split; [constructor|discriminate].
  - destruct (space c) eqn:S.
    + exists (c :: a). repeat split; [constructor; [now apply space_spec|exact A]| |exact N]. cbn [app]. now rewrite E at 1.
    + exists []. repeat split; [constructor|]. intros d r [= <- <-] X. apply space_spec in X. congruence.
Qed.
Lemma skip_space_app a t : Forall blank a -> skip_space (a ++ t) = skip_space t.
Proof. induction 1 as [|c a B _ IH]; cbn [app skip_space]; [reflexivity|]. apply space_spec in B. now rewrite B. Qed.
Lemma skip_space_id t : (forall c r, t = c :: r -> ~ blank c) -> skip_space t = t.
Proof.
  destruct t as [|c t]; [reflexivity|]. intros H. cbn [skip_space]. destruct (space c) eqn:S; [|reflexivity].
  exfalso. apply (H c t eq_refl). now apply space_spec.
Qed.
Lemma strip_around t : exists a b, Forall blank a /\ Forall blank b /\ t = a ++ strip t ++ b.
Proof.
  destruct (skip_space_spec t) as (a & A & E & _). destruct (skip_space_spec (rev (skip_space t))) as (b & B & F & _).
  exists a, (rev b). repeat split; [exact A|now apply Forall_rev|]. unfold strip.
  rewrite E at 1. f_equal. rewrite <- rev_app_distr, <- F. now rewrite rev_involutive.
Qed.
Lemma strip_core a t b : Forall blank a -> Forall blank b -> t <> [] ->
  ~ blank (hd 0 t) -> ~ blank (last t 0) -> strip (a ++ t ++ b) = t.
Proof.
  intros A B N H L. unfold strip. rewrite skip_space_app by exact A.
  rewrite (skip_space_id (t ++ b)).
  2:{ intros c r E. destruct t as [|d t]; [congruence|]. cbn [app] in E. injection E as -> _. exact H. }
  rewrite rev_app_distr, skip_space_app by now apply Forall_rev. rewrite skip_space_id.
  - apply rev_involutive.
  - intros c r E. rewrite <- (rev_involutive t) in L, N. rewrite E in L, N. cbn [rev] in L. now rewrite last_last in L.
Qed.
Definition core (t : text) : Prop := t <> [] /\ 48 <= hd 0 t /\ 48 <= last t 0.
Lemma core_blank t : core t -> ~ blank (hd 0 t) /\ ~ blank (last t 0).
Proof. unfold core, blank. lia. Qed.
Lemma signed_spec f lit : (forall t n, f t = Ok n <-> lit t n) -> (forall t n, lit t n -> core t) ->
  forall t n, signed f t = Ok n <-> with_sign lit t n.
Proof.
  intros F C t n. unfold signed. split.
  - destruct (strip_around t) as (a & b & A & B & E). intros H. destruct (strip t) as [|c r].
    + apply F, C in H as (H & _). congruence.
    + destruct (c =? 45) eqn:S1; [|destruct (c =? 43) eqn:S2].
      * apply Z.eqb_eq in S1. subst c. apply bind_ok in H as (m & M & H). apply Ok_inj in H. subst n. rewrite E.
        apply (WSigned lit a [45] r b m); auto. now apply F.
      * apply Z.eqb_eq in S2. subst c. rewrite E. apply (WSigned lit a [43] r b n); auto. now apply F.
      * rewrite E. apply (WSigned lit a [] (c :: r) b n); auto. now apply F.
  - destruct 1 as [a s t b n m A B L S]. pose proof (C _ _ L) as K. pose proof (core_blank _ K) as (K1 & K2). destruct K as (K & K3 & K4).
    assert (strip (a ++ (s ++ t) ++ b) = s ++ t) as E.
    { apply strip_core; auto.
      - destruct s; [exact K|discriminate].
      - destruct S as [([-> | ->] & _)|(-> & _)]; [exact K1| |]; unfold blank; cbn [app hd]; lia.
      - destruct t as [|c t]; [congruence|].
        destruct S as [([-> | ->] & _)|(-> & _)]; exact K2. }
    rewrite <- app_assoc in E. rewrite E. apply F in L. destruct t as [|c t]; [congruence|]. cbn [hd] in K3.
    destruct S as [([-> | ->] & ->)|(-> & ->)]; cbn [app].
    + replace (c =? 45) with false by lia. replace (c =? 43) with false by lia. exact L.
    + exact L.
    + change (45 =? 45) with true. cbn iota. now rewrite L.
Qed.
Lemma digit_text_core base t l : digit_text base t l -> core t.
Proof.
  intros H. destruct (digit_text_nonempty _ _ _ H) as (c & v & t' & l' & E & _ & D). apply digit_char_range in D as (_ & D & _).
  split; [subst; discriminate|]. split; [subst; cbn [hd]; lia|]. clear c v t' l' E D.
  induction H as [c v D|c v t l D _ H IH|c v t l D _ H IH].
  - apply digit_char_range in D as (_ & D & _). cbn [last]. lia.
  - destruct t; [inversion H|exact IH].
  - destruct t; [inversion H|exact IH].
Qed.
Lemma literal_core t n : literal t n -> core t.
Proof.
  destruct 1 as [t d l D _ _|t l D _ _|p base u t l B U D]; [eapply digit_text_core, D..|].
  apply digit_text_core in D as (D1 & D2 & D3). destruct t as [|c t]; [congruence|]. unfold base_prefix in B.
  split; [|split].
  - intuition (subst; discriminate).
  - intuition (subst; cbn [app hd]; lia).
  - intuition (subst; exact D3).
Qed.
Lemma decimal_core t n : decimal_text t n -> core t.
Proof. destruct 1. eapply digit_text_core. eassumption. Qed.

Lemma bind_err {A B} (m : res A) (f : A -> res B) e : bind m f = Err e -> m = Err e \/ exists a, m = Ok a /\ f a = Err e.
Proof. destruct m as [a|x]; cbn [bind]; [eauto|]. intros [= ->]. now left. Qed.

(* ---------------- Theorems ---------------- *)

(* --key-num, --salt and --kdf-salt take exactly Python's integer literals with
   sign and blanks; -d and -s take decimal numbers.  Anything else is
   ValueError. *)
Theorem C73_integer : forall t n, int0 t = Ok n <-> with_sign literal t n.
Proof. apply signed_spec; [apply unsigned0_spec|apply literal_core]. Qed.
Theorem C73_decimal : forall t n, int10 t = Ok n <-> with_sign decimal_text t n.
Proof. apply signed_spec; [apply unsigned10_spec|apply decimal_core]. Qed.
Theorem C73_bad_integer : forall t e, int0 t = Err e \/ int10 t = Err e -> e = ValueError.
Proof.
  assert (forall b (u : unit) e, guard b ValueError = Err e -> e = ValueError) as G.
  { intros b u e. unfold guard. destruct b; [discriminate|congruence]. }
  assert (forall l e, decimal_of l = Err e -> e = ValueError) as D.
  { intros l e. unfold decimal_of, guard. destruct (_ <=? _); cbn [bind]; [discriminate|congruence]. }
  assert (forall b t e, prefixed b t = Err e -> e = ValueError) as Q.
  { intros b t e. unfold prefixed. destruct (digits _ _ _); [discriminate|congruence]. }
  assert (forall t e, plain t = Err e -> e = ValueError) as L.
  { intros t e. unfold plain. destruct (digits _ _ _) as [l|]; [|congruence]. intros H. apply bind_err in H as [H|(n & _ & H)]; [eauto|].
    apply bind_err in H as [H|(? & _ & H)]; [exact (G _ tt _ H)|discriminate]. }
  assert (forall f, (forall t e, f t = Err e -> e = ValueError) -> forall t e, signed f t = Err e -> e = ValueError) as S.
  { intros f F t e. unfold signed. destruct (strip t) as [|c r]; [eauto|]. destruct (c =? 45); [|destruct (c =? 43); eauto].
    intros H. apply bind_err in H as [H|(? & _ & H)]; [eauto|discriminate]. }
  intros t e [H|H]; eapply S; try exact H; clear t e H; intros t e H.
  - destruct (unsigned0_cases t) as [(E & _)|(p & base & r & _ & _ & E)]; rewrite E in H; eauto.
  - unfold unsigned10 in H. destruct (digits _ _ _); [eauto|congruence].
Qed.
Print Assumptions C73_integer.
Print Assumptions C73_decimal.
Print Assumptions C73_bad_integer.

(* Every number has a spelling: str(n) in decimal, hex() of its bytes. *)
Lemma decimal_digits t : Forall (fun c => 48 <= c <= 57) t -> t <> [] -> digit_text 10 t (map (fun c => c - 48) t).
Proof.
  assert (forall c, 48 <= c <= 57 -> digit_char (c - 48) c) as D.
  { intros c H. replace c with (48 + (c - 48)) at 2 by lia. constructor. lia. }
  induction 1 as [|c t C F IH]; [congruence|]. intros _. destruct t as [|d t]; [apply DOne; [auto|lia]|].
  apply DMore; [auto|lia|]. now apply IH.
Qed.
Lemma value_of_dec t a : fold_left (fun a c => 10 * a + (c - 48)) t a = a * 10 ^ zlen t + value_of 10 (map (fun c => c - 48) t).
Proof.
  revert a. induction t as [|c t IH]; intros a; cbn [fold_left map value_of]; [change (zlen (@nil Z)) with 0; lia|].
  rewrite IH, zlen_cons, Z.pow_add_r by (pose proof (zlen_nonneg t); lia). replace (zlen (map (fun c => c - 48) t)) with (zlen t) by (unfold zlen; now rewrite map_length). lia.
Qed.
Theorem C73_str : forall n, 0 <= n < 10 ^ 4300 ->
  int0 (dec n) = Ok n /\ int10 (dec n) = Ok n /\ int0 (45 :: dec n) = Ok (- n).
Proof.
  intros n [N M]. assert (forall k, 4300 <= k -> n < 10 ^ k) as M'.
  { intros k K. eapply Z.lt_le_trans; [exact M|]. now apply Z.pow_le_mono_r. }
  clear M. destruct (PropsGraph.dec_ok n N) as (F & E & Z & V). set (t := dec n) in *. clearbody t.
  assert (exists c r, t = c :: r) as (c & r & T) by (destruct t; [congruence|eauto]).
  pose proof (decimal_digits t F E) as D. set (l := map (fun c => c - 48) t) in *.
  assert (value_of 10 l = n) as W.
  { rewrite <- V, value_of_dec. fold l. lia. }
  assert (zlen l <= 4300) as L.
  { destruct (Z.eq_dec c 48) as [->|N0]. { rewrite T in Z. cbn [hd] in Z. specialize (Z eq_refl). subst l. rewrite T, Z. vm_compute. discriminate. }
    destruct (Z_le_gt_dec (zlen l) 4300) as [|G]; [assumption|exfalso].
    enough (n < value_of 10 l) by lia. unfold l. rewrite T. cbn [map value_of].
    assert (4300 <= zlen (map (fun c => c - 48) r)) as G'. { subst l. rewrite T in G. cbn [map] in G. rewrite zlen_cons in G. lia. }
    specialize (M' _ G'). rewrite T in F. inversion F as [|? ? C F']; subst.
    assert (0 <= value_of 10 (map (fun c => c - 48) r)).
    { apply value_of_nonneg; [lia|]. apply Forall_map. eapply Forall_impl; [|exact F']. cbn beta. lia. }
    assert (1 * 10 ^ zlen (map (fun c => c - 48) r) <= (c - 48) * 10 ^ zlen (map (fun c => c - 48) r)) by (apply Z.mul_le_mono_nonneg_r; lia). lia. }
  assert (literal t n) as LT.
  { destruct (Z.eq_dec c 48) as [->|N0].
    - assert (t = [48]) as Z' by (apply Z; now rewrite T). clear T Z. subst t. subst l. cbn in V. subst n.
      eapply LZeros; [exact D|repeat constructor|exact L].
    - rewrite <- W. subst l. rewrite T in *. cbn [map] in *. constructor; [exact D|lia|exact L]. }
  assert (forall lit : text -> BinNums.Z -> Prop, lit t n -> with_sign lit t n) as S.
  { intros lit H. rewrite <- (app_nil_r t) at 1. apply (WSigned lit [] [] t [] n n); auto. }
  split; [apply C73_integer, S, LT|]. split.
  - apply C73_decimal, S. rewrite <- W. now constructor.
  - apply C73_integer. rewrite <- (app_nil_r t). apply (WSigned literal [] [45] t [] n); auto.
Qed.
Print Assumptions C73_str.

Lemma hex_digit_char d : 0 <= d < 16 -> digit_char d (hex_digit d).
Proof.
  intros H. unfold hex_digit. destruct (d <? 10) eqn:E; [constructor; lia|]. replace (87 + d) with (97 + (d - 10)) by lia. constructor. lia.
Qed.
Lemma hex_spells b : bytes_ok b -> spells (hex b) b.
Proof.
  induction 1 as [|x b X F IH]; [constructor|]. cbn [hex flat_map app]. destruct (byte_digits x X) as (A & B & C).
  rewrite C at 3. rewrite (Z.mul_comm 16). apply SPair; try (apply hex_digit_char; assumption); try lia. exact IH.
Qed.

(* --enc-key: the bytes the text spells in hexadecimal, after an optional "0x";
   whatever spells no bytes ends the program with a usage message. *)
Theorem C73_key : forall t b, convert (str_to_array t) = Given b <->
  (exists r, t = [48; 120] ++ r /\ spells r b) \/ ((forall r, t <> [48; 120] ++ r) /\ spells t b).
Proof.
  intros t b. assert (convert (str_to_array t) = Given b <-> str_to_array t = Ok b) as ->.
  { destruct (str_to_array t) as [x|e]; cbn [convert]; [split; congruence|]. destruct e; split; discriminate. }
  unfold str_to_array, hex_body.
  assert (forall t, from_hex t = Ok b <-> spells t b) as S by (intros u; now apply (from_hex_spec (length u))).
  destruct t as [|z [|x r]].
  1, 2: rewrite S; split; [intros H; right; split; [discriminate|exact H]|intros [(r & E & _)|(_ & H)]; [discriminate|exact H]].
  destruct ((z =? 48) && (x =? 120)) eqn:E; rewrite S; split.
  - intros H. left. exists r. split; [|exact H]. cbn [app]. repeat f_equal; lia.
  - intros [(r' & E' & H)|(N & _)]; [now injection E' as _ _ ->|]. exfalso. apply (N r). cbn [app]. repeat f_equal; lia.
  - intros H. right. split; [|exact H]. intros r' E'. injection E' as -> -> _. discriminate.
  - intros [(r' & E' & H)|(_ & H)]; [|exact H]. injection E' as -> -> _. discriminate.
Qed.
Theorem C73_bad_key : forall t, (forall b, convert (str_to_array t) <> Given b) -> convert (str_to_array t) = Usage.
Proof.
  intros t N. destruct (str_to_array t) as [b|e] eqn:E; [now destruct (N b)|].
  unfold str_to_array in E. apply from_hex_err in E. now subst e.
Qed.
(* every key can be given *)
Theorem C73_hex : forall b, bytes_ok b ->
  convert (str_to_array (hex b)) = Given b /\ convert (str_to_array ([48; 120] ++ hex b)) = Given b.
Proof.
  intros b B. pose proof (hex_spells b B) as H. split; apply C73_key; [|left; eauto].
  right. split; [|exact H]. intros r E.
  assert (forall x, In x (hex b) -> x <> 120) as X.
  { intros x I. clear H E. induction B as [|y b Y F IH]; [destruct I|]. cbn [hex flat_map app In] in I.
    destruct (byte_digits y Y) as (D1 & D2 & _). pose proof (hex_digit_range _ D1). pose proof (hex_digit_range _ D2). destruct I as [I|[I|I]]; [lia|lia|auto]. }
  rewrite E in X. apply (X 120); [right; left; reflexivity|reflexivity].
Qed.
Print Assumptions C73_key.
Print Assumptions C73_bad_key.
Print Assumptions C73_hex.

(* ---------------- Names of modes and of key derivation functions ---------------- *)

(* c is the capital u, or its small letter, or the small letter that has the
   same capital *)
Definition letter (c u : Z) : Prop := c = u \/ 65 <= u <= 90 /\ c = u + 32 \/ u = 83 /\ c = 383 \/ u = 73 /\ c = 305.
Definition capital (u : Z) : bool := negb ((97 <=? u) && (u <=? 122)) && negb (u =? 383) && negb (u =? 305).
Lemma upper_spec t s : forallb capital s = true -> upper t = s <-> Forall2 letter t s.
Proof.
  revert s. induction t as [|c t IH]; intros [|u s] C; cbn [upper map].
  - split; [constructor|reflexivity].
  - split; [discriminate|inversion 1].
  - split; [discriminate|inversion 1].
  - cbn [forallb] in C. apply andb_true_iff in C as [C1 C2]. fold (upper t).
    assert (upper1 c = u <-> letter c u) as E.
    { unfold upper1, letter, capital in *.
      destruct ((97 <=? c) && (c <=? 122)) eqn:Q1; [lia|]. destruct (c =? 383) eqn:Q2; [lia|]. destruct (c =? 305) eqn:Q3; lia. }
    split.
    + intros [= A B]. constructor; [now apply E|]. now apply IH.
    + inversion 1; subst. f_equal; [now apply E|]. now apply IH.
Qed.
Lemma beqb_dec a b : reflect (a = b) (beqb a b).
Proof. apply iff_reflect. symmetry. apply beqb_spec. Qed.
Definition mode_text (m : aalg) : text := match m with GCM => [71; 67; 77] | CCM => [67; 67; 77] end.
Theorem C73_mode : forall t,
  (forall m, mode_arg t = Given m <-> Forall2 letter t (mode_text m)) /\
  ((forall m, ~ Forall2 letter t (mode_text m)) -> mode_arg t = Usage).
Proof.
  intros t. pose proof (upper_spec t t_gcm eq_refl) as G. pose proof (upper_spec t t_ccm eq_refl) as C. unfold mode_arg.
  destruct (beqb_dec (upper t) t_gcm) as [E|E]; [|destruct (beqb_dec (upper t) t_ccm) as [F|F]].
  - split; [|intros N; exfalso; apply (N GCM), G, E]. intros []; cbn [mode_text]; split; try congruence; intros H.
    + now apply G.
    + apply C in H. rewrite E in H. discriminate.
  - split; [|intros N; exfalso; apply (N CCM), C, F]. intros []; cbn [mode_text]; split; try congruence; intros H.
    + apply G in H. rewrite F in H. discriminate.
    + now apply C.
  - split; [|reflexivity]. intros []; cbn [mode_text]; split; try discriminate; intros H; [apply G in H|apply C in H]; congruence.
Qed.
(* "HKDF-SHA256", "HKDF-SHA384", "HKDF-SHA512" *)
Definition kdf_text (i : kdfid) : text :=
  [72; 75; 68; 70; 45; 83; 72; 65] ++
  match i with HkdfSha256 => [50; 53; 54] | HkdfSha384 => [51; 56; 52] | HkdfSha512 => [53; 49; 50] end.
Theorem C73_kdf : forall t,
  (forall i, kdf_arg t = Given i <-> Forall2 letter t (kdf_text i)) /\
  ((forall i, ~ Forall2 letter t (kdf_text i)) -> kdf_arg t = Usage).
Proof.
  intros t. assert (forall i, upper t = kdf_text i <-> Forall2 letter t (kdf_text i)) as U by (intros []; now apply upper_spec).
  assert (forall i, kdf_name i = kdf_text i) as K by reflexivity.
  assert (forall i, beqb (kdf_name i) (upper t) = true <-> Forall2 letter t (kdf_text i)) as B.
  { intros i. rewrite <- U, K. destruct (beqb_dec (kdf_text i) (upper t)); split; congruence. }
  unfold kdf_arg. destruct (find _ _) as [i|] eqn:F.
  - apply find_some in F as [_ F]. apply B in F. split; [|intros N; now destruct (N i)].
    intros j. split; [intros [= <-]; exact F|]. intros J. apply U in F, J. rewrite F in J. destruct i, j; try discriminate; reflexivity.
  - split; [|reflexivity]. intros i. split; [discriminate|]. intros I. apply B in I.
    pose proof (find_none _ _ F i) as N. cbn beta in N. rewrite I in N. discriminate N. destruct i; cbn; auto.
Qed.
Print Assumptions C73_mode.
Print Assumptions C73_kdf.

(* ---------------- Numbers and KDF info ---------------- *)

Lemma int_tlv_total n : (0 <= n -> exists t, int_tlv T_KEYNUM n = Ok t) /\ (n < 0 -> int_tlv T_KEYNUM n = Err OverflowError).
Proof.
  split; [intros H; apply int_tlv_intro; [unfold T_KEYNUM; lia|exact H]|]. intros H.
  destruct (int_tlv T_KEYNUM n) as [t|e] eqn:E.
  - apply int_tlv_ok in E as (_ & _ & E & _). lia.
  - f_equal. pose proof (int_tlv_errs T_KEYNUM n [OverflowError] (or_introl eq_refl) e E) as [X|[]]. now symmetry.
Qed.
Theorem C73_number : forall t,
  (forall n, num_arg t = Given n <-> with_sign literal t n /\ 0 <= n) /\
  (num_arg t = Raised OverflowError <-> exists n, with_sign literal t n /\ n < 0) /\
  ((forall n, ~ with_sign literal t n) -> num_arg t = Usage).
Proof.
  intros t. unfold num_arg. destruct (int0 t) as [m|e] eqn:I.
  - apply C73_integer in I. assert (forall n, with_sign literal t n -> n = m) as U.
    { intros n H. apply C73_integer in H, I. congruence. }
    cbn [bind]. destruct (int_tlv_total m) as [A B]. destruct (Z_lt_ge_dec m 0) as [L|L].
    + rewrite B by exact L. cbn [bind convert]. split; [|split].
      * intros n. split; [discriminate|]. intros [H ?]. apply U in H. lia.
      * split; eauto.
      * intros N. now destruct (N m).
    + destruct A as [x ->]; [lia|]. cbn [bind convert]. split; [|split].
      * intros n. split; [intros [= <-]; split; [exact I|lia]|]. intros [H ?]. apply U in H. congruence.
      * split; [discriminate|]. intros (n & H & ?). apply U in H. lia.
      * intros N. now destruct (N m).
  - assert (forall n, ~ with_sign literal t n) as N by (intros n H; apply C73_integer in H; congruence).
    assert (e = ValueError) as -> by (apply (C73_bad_integer t); now left). cbn [bind convert]. split; [|split].
    + intros n. split; [discriminate|]. intros [H _]. now destruct (N n).
    + split; [discriminate|]. intros (n & H & _). now destruct (N n).
    + reflexivity.
Qed.
(* a salt may be negative here *)
Theorem C73_salt : forall t,
  (forall n, convert (int0 t) = Given n <-> with_sign literal t n) /\
  ((forall n, ~ with_sign literal t n) -> convert (int0 t) = Usage).
Proof.
  intros t. destruct (int0 t) as [m|e] eqn:I.
  - apply C73_integer in I. cbn [convert]. split; [|intros N; now destruct (N m)].
    intros n. split; [intros [= <-]; exact I|]. intros H. apply C73_integer in H, I. congruence.
  - assert (e = ValueError) as -> by (apply (C73_bad_integer t); now left). cbn [convert]. split; [|reflexivity].
    intros n. split; [discriminate|]. intros H. apply C73_integer in H. congruence.
Qed.
Print Assumptions C73_number.
Print Assumptions C73_salt.

(* --kdf-info: after "0x" the bytes spelled in hexadecimal, otherwise the text
   in UTF-8; at most 65535 bytes. *)
Definition info_text (t : text) (b : bytes) : Prop :=
  (exists r, t = [48; 120] ++ r /\ spells r b) \/ ((forall r, t <> [48; 120] ++ r) /\ utf8_decode b = Ok t).
Lemma spells_bytes t b : spells t b -> bytes_ok b.
Proof.
  induction 1 as [|c t b _ _ IH|x y u v t b U V U1 V1 _ IH]; [constructor|exact IH|]. constructor; [|exact IH].
  apply digit_char_range in U, V. unfold is_byte. lia.
Qed.
Lemma hex_body_spec t : match hex_body t with Some r => t = [48; 120] ++ r | None => forall r, t <> [48; 120] ++ r end.
Proof.
  unfold hex_body. destruct t as [|z [|x r]]; try discriminate. destruct ((z =? 48) && (x =? 120)) eqn:E.
  - cbn [app]. repeat f_equal; lia.
  - intros r' [= -> -> _]. discriminate.
Qed.
Theorem C73_info : forall t,
  (forall b, info_arg t = Given b <-> info_text t b /\ zlen b < 65536) /\
  (info_arg t = Raised OverflowError <-> exists b, info_text t b /\ 65536 <= zlen b) /\
  ((forall b, ~ info_text t b) -> info_arg t = Usage).
Proof.
  intros t. unfold info_arg.
  set (m := match hex_body t with Some r => from_hex r | None => utf8_encode t end).
  assert (forall b, m = Ok b <-> info_text t b) as M.
  { intros b. pose proof (hex_body_spec t) as H. unfold m, info_text. destruct (hex_body t) as [r|].
    - rewrite (from_hex_spec (length r)) by lia. split; [eauto|]. intros [(r' & E & S)|(N & _)]; [|now destruct (N r)].
      rewrite H in E. apply app_inv_head in E. now subst r'.
    - split; [intros E; right; split; [exact H|now apply PropsUri.C63_utf8_encode]|].
      intros [(r & E & _)|(_ & E)]; [now destruct (H r)|now apply PropsUri.C63_utf8_decode]. }
  assert (forall b, info_text t b -> bytes_ok b) as B.
  { intros b [(r & _ & S)|(N & E)]; [eapply spells_bytes, S|]. apply PropsUri.C63_utf8_decode in E. eapply PropsUri.encode_bytes, E. }
  assert (forall e, m = Err e -> e = ValueError) as V.
  { intros e. unfold m. destruct (hex_body t); [apply from_hex_err|]. unfold utf8_encode. destruct (forallb _ _); [discriminate|congruence]. }
  clearbody m. destruct m as [b|e].
  - pose proof (proj1 (M b) eq_refl) as I. assert (forall b', info_text t b' -> b' = b) as U by (intros b' H; apply M in H; congruence).
    cbn [bind]. unfold octet_tlv. destruct (tlv_make T_KDF_INFO b) as [x|e] eqn:T; cbn [bind convert].
    + apply tlv_make_ok in T as [(_ & T & _) _]. unfold tlv_length in T. cbn [t_val] in T. split; [|split].
      * intros b'. split; [intros [= <-]; split; [exact I|lia]|]. intros [H _]. now rewrite (U _ H).
      * split; [discriminate|]. intros (b' & H & L). apply U in H. subst b'. lia.
      * intros N. now destruct (N b).
    + apply tlv_make_err in T as [T ->]. assert (65536 <= zlen b) as L.
      { destruct (Z_lt_ge_dec (zlen b) 65536); [|lia]. exfalso. apply T. split; [cbn [t_type]; unfold T_KDF_INFO; lia|]. split; [unfold tlv_length; cbn [t_val]; lia|cbn [t_val]; now apply B]. }
      cbn [convert]. split; [|split].
      * intros b'. split; [discriminate|]. intros [H L']. apply U in H. subst b'. lia.
      * split; eauto.
      * intros N. now destruct (N b).
  - rewrite (V e eq_refl). cbn [bind convert]. assert (forall b, ~ info_text t b) as N by (intros b H; apply M in H; discriminate).
    split; [|split]; [|split; [discriminate|]|reflexivity].
    + intros b. split; [discriminate|]. intros [H _]. now destruct (N b).
    + intros (b & H & _). now destruct (N b).
Qed.
Print Assumptions C73_info.

(* ---------------- The whole command line ---------------- *)

Definition key_text (t : text) (b : bytes) : Prop :=
  (exists r, t = [48; 120] ++ r /\ spells r b) \/ ((forall r, t <> [48; 120] ++ r) /\ spells t b).
(* an option is given with a text that means the value, or not given *)
Definition says {A} (means : text -> A -> Prop) (t : option text) (v : option A) : Prop :=
  match t, v with
  | None, None => True
  | Some t, Some a => means t a
  | _, _ => False
  end.
Definition num_text (t : text) (n : Z) : Prop := with_sign literal t n /\ 0 <= n.
Record means {P} (t : ctext P) (a : cargs P) : Prop := mkMeans
  { me_key : ca_key a = ct_key t;
    me_wrap : ca_wrap a = ct_wrap t;
    me_enc : says key_text (ct_enc t) (ca_enc a);
    me_mode : match ct_mode t with None => ca_mode a = GCM | Some x => Forall2 letter x (mode_text (ca_mode a)) end;
    me_num : says num_text (ct_num t) (ca_num a);
    me_salt : says (with_sign literal) (ct_salt t) (ca_salt a);
    me_kdf : says (fun x i => Forall2 letter x (kdf_text i)) (ct_kdf t) (ca_kdf a);
    me_info : exists i, says (fun x b => info_text x b /\ zlen b < 65536) (ct_info t) i /\
      ca_info a = match ct_uuid t with Some u => Some u | None => i end;
    me_kdf_salt : says (with_sign literal) (ct_kdf_salt t) (ca_kdf_salt a) }.

Lemma option_arg_spec {A} (conv : text -> arg A) (m : text -> A -> Prop) :
  (forall t a, conv t = Given a <-> m t a) -> forall t v, option_arg conv t = Given v <-> says m t v.
Proof.
  intros H [t|] v; cbn [option_arg says].
  - destruct (conv t) as [a| |e] eqn:E; cbn [abind].
    + split; [intros [= <-]; now apply H|]. destruct v as [b|]; [|intros []]. intros M. apply H in M. congruence.
    + split; [discriminate|]. destruct v as [b|]; [|intros []]. intros M. apply H in M. congruence.
    + split; [discriminate|]. destruct v as [b|]; [|intros []]. intros M. apply H in M. congruence.
  - split; [intros [= <-]; exact I|]. destruct v; [intros []|reflexivity].
Qed.
Lemma abind_given {A B} (m : arg A) (f : A -> arg B) b : abind m f = Given b <-> exists a, m = Given a /\ f a = Given b.
Proof. destruct m; cbn [abind]; split; try discriminate; [eauto|intros (x & [= <-] & H); exact H|intros (x & H & _); discriminate|intros (x & H & _); discriminate]. Qed.
(* Parsing gives the arguments that the texts mean, and fails if they mean
   none. *)
Theorem C73_parsed : forall P (t : ctext P) a, cli_parse P t = Given a <-> means t a.
Proof.
  intros P t a. unfold cli_parse. repeat setoid_rewrite abind_given.
  pose proof (option_arg_spec _ _ C73_key (ct_enc t)) as E1.
  pose proof (option_arg_spec mode_arg (fun x m => Forall2 letter x (mode_text m)) (fun x => proj1 (C73_mode x)) (ct_mode t)) as E2.
  pose proof (option_arg_spec num_arg num_text (fun x => proj1 (C73_number x)) (ct_num t)) as E3.
  pose proof (option_arg_spec _ _ (fun x => proj1 (C73_salt x)) (ct_salt t)) as E4.
  pose proof (option_arg_spec kdf_arg _ (fun x => proj1 (C73_kdf x)) (ct_kdf t)) as E5.
  pose proof (option_arg_spec info_arg _ (fun x => proj1 (C73_info x)) (ct_info t)) as E6.
  pose proof (option_arg_spec _ _ (fun x => proj1 (C73_salt x)) (ct_kdf_salt t)) as E7.
  split.
  - intros (e & A1 & m & A2 & n & A3 & s & A4 & k & A5 & i & A6 & ks & A7 & A). injection A as <-.
    apply E1 in A1. apply E2 in A2. apply E3 in A3. apply E4 in A4. apply E5 in A5. apply E6 in A6. apply E7 in A7.
    constructor; cbn; auto; [|exists i; auto]. destruct (ct_mode t), m; try destruct A2; auto.
  - intros [B1 B2 B3 B4 B5 B6 B7 (i & B8 & B9) B10]. exists (ca_enc a). split; [now apply E1|].
    exists (match ct_mode t with None => None | Some _ => Some (ca_mode a) end). split; [apply E2; now destruct (ct_mode t)|].
    exists (ca_num a). split; [now apply E3|]. exists (ca_salt a). split; [now apply E4|]. exists (ca_kdf a). split; [now apply E5|].
    exists i. split; [now apply E6|]. exists (ca_kdf_salt a). split; [now apply E7|].
    f_equal. rewrite <- B1, <- B2, <- B9. destruct a as [x1 x2 x3 x4 x5 x6 x7 x8 x9]. cbn in *. f_equal. destruct (ct_mode t); auto.
Qed.
Print Assumptions C73_parsed.

(* Otherwise there is a usage message, or OverflowError for a negative key
   number or a KDF info that is too long. *)
Theorem C73_refused : forall P (t : ctext P) e, cli_parse P t = Raised e -> e = OverflowError /\
  ((exists x n, ct_num t = Some x /\ with_sign literal x n /\ n < 0) \/
   (exists x b, ct_info t = Some x /\ info_text x b /\ 65536 <= zlen b)).
Proof.
  intros P t e H. unfold cli_parse in H.
  assert (forall A B (m : arg A) (f : A -> arg B), abind m f = Raised e -> m = Raised e \/ exists a, f a = Raised e) as S.
  { intros A B [a| |x] f X; cbn [abind] in X; eauto; [discriminate|]. injection X as ->. now left. }
  assert (forall A (conv : text -> arg A) x, option_arg conv x = Raised e -> exists y, x = Some y /\ conv y = Raised e) as O.
  { intros A conv [x|] X; [|discriminate]. cbn [option_arg] in X. exists x. split; [reflexivity|]. apply S in X as [X|(a & X)]; [exact X|discriminate]. }
  apply S in H as [H|(? & H)]; [|apply S in H as [H|(? & H)]]; [| |apply S in H as [H|(? & H)]];
    [| | |apply S in H as [H|(? & H)]]; [| | | |apply S in H as [H|(? & H)]]; [| | | | |apply S in H as [H|(? & H)]];
    [| | | | | |apply S in H as [H|(? & H)]; [|discriminate]]; apply O in H as (y & Y & H).
  - destruct (str_to_array y) as [b|err] eqn:E; [discriminate|]. unfold str_to_array in E. apply from_hex_err in E. subst err. discriminate.
  - unfold mode_arg in H. destruct (beqb _ _); [|destruct (beqb _ _)]; discriminate.
  - assert (e = OverflowError) as ->.
    { unfold num_arg in H. destruct (int0 y) as [n|err] eqn:E.
      - cbn [bind] in H. destruct (int_tlv T_KEYNUM n) as [q|err] eqn:T; [discriminate|].
        pose proof (int_tlv_errs T_KEYNUM n [OverflowError] (or_introl eq_refl) err T) as [<-|[]]. now injection H as <-.
      - assert (err = ValueError) as -> by (apply (C73_bad_integer y); now left). discriminate. }
    split; [reflexivity|]. left. apply C73_number in H as (n & N & L). eauto.
  - destruct (int0 y) as [n|err] eqn:E; [discriminate|]. assert (err = ValueError) as -> by (apply (C73_bad_integer y); now left). discriminate.
  - unfold kdf_arg in H. destruct (find _ _); discriminate.
  - assert (e = OverflowError) as ->.
    { unfold info_arg in H. destruct (match hex_body y with Some r => from_hex r | None => utf8_encode y end) as [b|err] eqn:E.
      - cbn [bind] in H. destruct (octet_tlv T_KDF_INFO b) as [q|err] eqn:T; [discriminate|].
        apply tlv_make_err in T as [_ ->]. now injection H as <-.
      - cbn [bind] in H. assert (err = ValueError) as ->; [|discriminate].
        destruct (hex_body y); [now apply from_hex_err in E|]. unfold utf8_encode in E. destruct (forallb _ _); [discriminate|congruence]. }
    split; [reflexivity|]. right. apply C73_info in H as (b & N & L). eauto.
  - destruct (int0 y) as [n|err] eqn:E; [discriminate|]. assert (err = ValueError) as -> by (apply (C73_bad_integer y); now left). discriminate.
Qed.
Print Assumptions C73_refused.

(* ---------------- Numbers of manifest_writer ---------------- *)

(* The tree degree and the packet size are given in decimal; without the
   option the packets have up to 1500 bytes. *)
Theorem C73_counts : forall t,
  (forall v, degree_arg t = Given v <-> says (with_sign decimal_text) t v) /\
  (forall n, size_arg t = Given n <-> match t with None => n = 1500 | Some x => with_sign decimal_text x n end) /\
  (forall e, degree_arg t <> Raised e /\ size_arg t <> Raised e).
Proof.
  assert (forall x n, convert (int10 x) = Given n <-> with_sign decimal_text x n) as D.
  { intros x n. rewrite <- C73_decimal. destruct (int10 x) as [m|e]; cbn [convert]; [split; congruence|]. destruct e; split; discriminate. }
  assert (forall x e, convert (int10 x) <> Raised e) as R.
  { intros x e. destruct (int10 x) as [m|err] eqn:E; [discriminate|]. rewrite (C73_bad_integer x err) by now right. discriminate. }
  intros t. split; [|split].
  - apply option_arg_spec, D.
  - intros n. destruct t as [x|]; cbn [size_arg]; [apply D|]. split; [now intros [= <-]|now intros ->].
  - intros e. unfold degree_arg. destruct t as [x|]; cbn [option_arg size_arg]; [|split; discriminate]. split; [|apply R].
    pose proof (R x) as Rx. destruct (convert (int10 x)); cbn [abind]; [discriminate|discriminate|]. intros [= ->]. now apply (Rx e).
Qed.
Print Assumptions C73_counts.

(* ---------------- Examples ---------------- *)

Definition chars (s : String.string) : text :=
  map (fun c => Z.of_N (Ascii.N_of_ascii c)) (String.list_ascii_of_string s).
Section Ex.
Import String.
Local Open Scope string_scope.
Example C73_integer_ex :
  int0 (chars " +0x_1F ") = Ok 31 /\ int0 (chars "-0b101") = Ok (-5) /\ int0 (chars "1_000") = Ok 1000 /\ int0 (chars "0o17") = Ok 15 /\
  int0 (chars "000") = Ok 0 /\ int0 (chars "007") = Err ValueError /\ int10 (chars "007") = Ok 7 /\ int10 (chars "0x7") = Err ValueError /\
  int0 (chars "1__0") = Err ValueError /\ int0 (chars "_1") = Err ValueError /\ int0 (chars "") = Err ValueError /\
  int0 (chars "0x") = Err ValueError /\ int0 (chars "- 5") = Err ValueError.
Proof. vm_compute. repeat split; reflexivity. Qed.
Example C73_key_ex :
  convert (str_to_array (chars "0xAB cd")) = Given [171; 205] /\ convert (str_to_array (chars "abcd")) = Given [171; 205] /\
  convert (str_to_array (chars "0Xabcd")) = Usage /\ convert (str_to_array (chars "abc")) = Usage /\ convert (str_to_array (chars "a bc d")) = Usage.
Proof. vm_compute. repeat split; reflexivity. Qed.
(* the last name is written with the letter U+017F, whose capital is S *)
Example C73_names_ex :
  mode_arg (chars "ccm") = Given CCM /\ mode_arg (chars "Gcm") = Given GCM /\ mode_arg (chars "cbc") = Usage /\
  kdf_arg (chars "hkdf-sha384") = Given HkdfSha384 /\ kdf_arg (chars "HKDF_SHA256") = Usage /\
  kdf_arg (chars "hkdf-" ++ [383] ++ chars "ha512")%list = Given HkdfSha512.
Proof. vm_compute. repeat split; reflexivity. Qed.
Example C73_number_ex :
  num_arg (chars "0x10") = Given 16 /\ num_arg (chars "-5") = Raised OverflowError /\ num_arg (chars "five") = Usage /\
  convert (int0 (chars "-5")) = Given (-5) /\ info_arg (chars "0x0aFF") = Given [10; 255] /\ info_arg (chars "key" ++ [233])%list = Given [107; 101; 121; 195; 169] /\
  info_arg (chars "0x0") = Usage /\ info_arg [55296] = Usage /\ info_arg (repeat 97 (Z.to_nat 65536)) = Raised OverflowError.
Proof. vm_compute. repeat split; reflexivity. Qed.
Example C73_parsed_ex : forall P k,
  cli_parse P (mkCT P k None (Some (chars "0x000102030405060708090a0b0c0d0e0f")) (Some (chars "ccm")) (Some (chars "22")) (Some (chars "0xFF"))
    (Some (chars "hkdf-sha256")) (Some (chars "label")) None None) =
  Given (mkCA P k None (Some [0;1;2;3;4;5;6;7;8;9;10;11;12;13;14;15]) CCM (Some 22) (Some 255) (Some HkdfSha256) (Some [108; 97; 98; 101; 108]) None) /\
  cli_parse P (mkCT P k None None None None None None (Some (chars "label")) (Some [1; 2]) None) =
  Given (mkCA P k None None GCM None None None (Some [1; 2]) None) /\
  cli_parse P (mkCT P k None None None (Some (chars "-1")) None None None None None) = Raised OverflowError /\
  cli_parse P (mkCT P k None (Some (chars "xyz")) None (Some (chars "-1")) None None None None None) = Usage.
Proof. intros P k. repeat split; vm_compute; reflexivity. Qed.
Example C73_counts_ex :
  degree_arg None = Given None /\ degree_arg (Some (chars "011")) = Given (Some 11) /\ degree_arg (Some (chars "-3")) = Given (Some (-3)) /\
  degree_arg (Some (chars "0x11")) = Usage /\ size_arg None = Given 1500 /\ size_arg (Some (chars "9_000")) = Given 9000 /\ size_arg (Some []) = Usage.
Proof. vm_compute. repeat split; reflexivity. Qed.
End Ex.
