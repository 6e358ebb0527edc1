(* Lemmas about the core model. *)
From Coq Require Import ZArith List Bool Lia ZifyBool.
From Verif Require Import Py Tlv Float Core TlvProofs FloatProofs.
Import ListNotations.
Open Scope Z_scope.
Ltac Zify.zify_post_hook ::= Z.div_mod_to_equations.
Opaque tlv_make tlv_wire tlv_deserialize.

Lemma bind_intro {A B} (m : res A) (f : A -> res B) a : m = Ok a -> bind m f = f a.
Proof. intros ->. reflexivity. Qed.

(* rewrite with every "x = Ok _" hypothesis and reduce binds *)
Ltac run :=
  repeat (cbn [bind guard is_none negb andb orb Bool.eqb fst snd];
    first
    [ rewrite Z.eqb_refl
    | match goal with
      | H : ?x = Ok _ |- context [?x] => rewrite H
      end ]).

Lemma concat_wires_eq l : concat_wires l = wires l.
Proof. reflexivity. Qed.

Lemma tlv_ok_type ty v : tlv_ok (mkTlv ty v) -> 0 <= ty < 65536.
Proof. intros (H & _); exact H. Qed.
Lemma tlv_make_tlv_ok ty v t : tlv_make ty v = Ok t -> tlv_ok t /\ t_type t = ty /\ t_val t = v.
Proof. intros H. apply tlv_make_ok in H as [H ->]. auto. Qed.

Lemma mapM_ok_Forall2 {A B} (f : A -> res B) l l' :
  mapM f l = Ok l' <-> Forall2 (fun a b => f a = Ok b) l l'.
Proof.
  revert l'; induction l as [|a l IH]; intros l'; cbn [mapM].
  - split; [intros [= <-]; constructor|intros H; inversion H; reflexivity].
  - split; intros H.
    + mon. apply IH in E0. subst. constructor; auto.
    + inversion H; subst. rewrite H2. cbn [bind]. apply IH in H4. rewrite H4. reflexivity.
Qed.

(* optional fields as lists of TLVs *)
Definition opt_tlvs {A} (enc : A -> res tlv) (o : option A) (l : list tlv) : Prop :=
  match o with
  | None => l = []
  | Some a => exists t, enc a = Ok t /\ l = [t]
  end.

Lemma wire_opt_ok {A} (enc : A -> res tlv) o w :
  wire_opt enc o = Ok w ->
  exists l, opt_tlvs enc o l /\ forall r, flatten (w :: r) = wires l ++ flatten r.
Proof.
  destruct o as [a|]; cbn [wire_opt]; intros H; mon; subst.
  - exists [a0]. split; [exists a0; auto|]. intros r. cbn [flatten].
    unfold wires; cbn. rewrite app_nil_r. reflexivity.
  - exists []. split; [reflexivity|]. reflexivity.
Qed.

Lemma wire_opt_intro {A} (enc : A -> res tlv) o l :
  opt_tlvs enc o l -> exists w, wire_opt enc o = Ok w /\
    forall r, flatten (w :: r) = wires l ++ flatten r.
Proof.
  destruct o as [a|]; cbn [opt_tlvs wire_opt].
  - intros (t & E & ->). rewrite E. cbn [bind]. eexists; split; [reflexivity|].
    intros r. cbn [flatten]. unfold wires; cbn. rewrite app_nil_r. reflexivity.
  - intros ->. eexists; split; reflexivity.
Qed.

Lemma opt_tlvs_ok {A} (enc : A -> res tlv) o l :
  (forall a t, enc a = Ok t -> tlv_ok t) -> opt_tlvs enc o l -> Forall tlv_ok l.
Proof.
  intros He. destruct o as [a|]; cbn; [intros (t & E & ->)|intros ->]; constructor; eauto.
Qed.

Lemma flatten_some w r : flatten (Some w :: r) = w ++ flatten r.
Proof. reflexivity. Qed.
Lemma wires_one t : wires [t] = tlv_wire t.
Proof. unfold wires. cbn [map concat]. apply app_nil_r. Qed.

(* Destruct "wire_opt ... = Ok w" hypotheses into lists of TLVs. *)
Ltac wopt H l :=
  let O := fresh "O" in let F := fresh "F" in
  apply wire_opt_ok in H; destruct H as (l & O & F).

(** * Hash values *)

Lemma hashv_tlv_ok h t : hashv_tlv h = Ok t ->
  tlv_ok t /\ t = mkTlv (h_alg h) (h_val h).
Proof. unfold hashv_tlv. intros H. apply tlv_make_ok in H as [H ->]. auto. Qed.

Lemma hashv_parse_roundtrip h t : hashv_tlv h = Ok t -> hashv_parse t = Ok h.
Proof.
  intros H. pose proof (hashv_tlv_ok _ _ H) as [_ ->]. unfold hashv_parse; cbn [t_type t_val].
  destruct h as [alg v]; cbn [h_alg h_val] in *. run. reflexivity.
Qed.

Lemma hashv_deserialize_roundtrip h t r :
  hashv_tlv h = Ok t -> hashv_deserialize (tlv_wire t ++ r) = Ok h.
Proof.
  intros H. unfold hashv_deserialize. rewrite tlv_deserialize_wire by apply (hashv_tlv_ok _ _ H).
  apply hashv_parse_roundtrip; assumption.
Qed.

Lemma hashv_parse_sound t h : hashv_parse t = Ok h -> hashv_tlv h = Ok t.
Proof.
  unfold hashv_parse. intros H. mon. subst. pose proof (hashv_tlv_ok _ _ E) as [_ ->].
  cbn [h_alg h_val] in *. destruct t; exact E.
Qed.

Lemma htt_tlv_ok ty h t : htt_tlv ty h = Ok t ->
  tlv_ok t /\ t_type t = ty /\ exists i, hashv_tlv h = Ok i /\ t_val t = tlv_wire i.
Proof.
  unfold htt_tlv. intros H. mon. apply tlv_make_tlv_ok in H as (A & B & C). eauto.
Qed.

Lemma htt_roundtrip ty h t : htt_tlv ty h = Ok t -> htt_parse ty t = Ok h.
Proof.
  intros H. pose proof (htt_tlv_ok _ _ _ H) as (Ho & Ht & i & Hi & Hv).
  unfold htt_parse. rewrite Ht, Hv. run.
  rewrite <- (app_nil_r (tlv_wire i)).
  rewrite (hashv_deserialize_roundtrip h i [] Hi). run. reflexivity.
Qed.

Lemma htt_parse_sound ty t h : htt_parse ty t = Ok h -> exists t', htt_tlv ty h = Ok t'.
Proof. unfold htt_parse. intros H. mon. subst. eauto. Qed.

(** * Names *)

(* what Name.parse makes of the components *)
Definition name_norm (n : name) : name :=
  map (fun c => mkComp (c_type c) KBytes (c_val c)) n.
(* the observable content of a name: types and bytes *)
Definition name_view (n : name) : list (Z * bytes) :=
  map (fun c => (c_type c, c_val c)) n.

Lemma name_norm_view n : name_view (name_norm n) = name_view n.
Proof. unfold name_view, name_norm. rewrite map_map. reflexivity. Qed.
Lemma name_norm_idem n : name_norm (name_norm n) = name_norm n.
Proof. unfold name_norm. rewrite map_map. reflexivity. Qed.

Lemma comps_ok n l : mapM comp_tlv n = Ok l <->
  Forall tlv_ok l /\ l = map (fun c => mkTlv (c_type c) (c_val c)) n.
Proof.
  rewrite mapM_ok_Forall2. split.
  - induction 1 as [|c t n l H Hl [IH1 IH2]]; [split; constructor|].
    apply tlv_make_ok in H as [H ->]. split; [constructor; auto|]. cbn; f_equal; exact IH2.
  - intros [H ->]. induction n as [|c n IH]; [constructor|].
    cbn in H. inversion H; subst. constructor; [|apply IH; assumption].
    apply tlv_make_ok; auto.
Qed.

Lemma name_tlv_ok n t : name_tlv n = Ok t ->
  tlv_ok t /\ t_type t = T_NAME /\
  exists l, mapM comp_tlv n = Ok l /\ t_val t = wires l.
Proof.
  unfold name_tlv. intros H. mon. apply tlv_make_tlv_ok in H as (A & B & C). eauto.
Qed.

Lemma name_tlv_norm n : name_tlv (name_norm n) = name_tlv n.
Proof.
  unfold name_tlv. f_equal. unfold name_norm.
  induction n as [|c n IH]; [reflexivity|]. cbn [map mapM]. rewrite IH. reflexivity.
Qed.

Lemma name_fold n l acc : mapM comp_tlv n = Ok l ->
  foldM name_step acc l = Ok (acc ++ name_norm n).
Proof.
  intros H. apply comps_ok in H as [H ->]. revert acc H.
  induction n as [|c n IH]; intros acc H; cbn [map foldM name_norm]; [rewrite app_nil_r; reflexivity|].
  inversion H as [|? ? H1 H2]; subst. unfold name_step at 1; cbn [t_type t_val].
  unfold comp_tlv; cbn [c_type c_val]. rewrite tlv_make_intro by assumption. cbn [bind].
  rewrite IH by assumption. rewrite <- app_assoc. reflexivity.
Qed.

Lemma name_roundtrip n t : name_tlv n = Ok t -> name_parse t = Ok (name_norm n).
Proof.
  intros H. pose proof (name_tlv_ok _ _ H) as (Ho & Ht & l & Hl & Hv).
  unfold name_parse. rewrite Ht, Hv. run.
  rewrite tlv_foreach_wires by (apply comps_ok in Hl; tauto).
  rewrite (name_fold n l [] Hl). cbn [bind app]. rewrite name_tlv_norm, H. reflexivity.
Qed.

Lemma name_fold_inv l : forall acc n, foldM name_step acc l = Ok n ->
  n = acc ++ map (fun t => mkComp (t_type t) KBytes (t_val t)) l.
Proof.
  induction l as [|t l IH]; intros acc n H; cbn [foldM] in H.
  - mon. subst. rewrite app_nil_r. reflexivity.
  - mon. unfold name_step in E. mon. subst. apply IH in H. rewrite H, <- app_assoc. reflexivity.
Qed.

Lemma name_parse_sound t n : tlv_ok t -> name_parse t = Ok n -> name_tlv n = Ok t /\ name_norm n = n.
Proof.
  intros Ho H. unfold name_parse in H. mon. subst.
  destruct (tlv_foreach_inv _ _ _ _ (proj2 (proj2 Ho)) E0) as (l & Hl & Hv & Hf).
  apply name_fold_inv in Hf. cbn [app] in Hf. subst n. split.
  - unfold name_tlv. assert (mapM comp_tlv (map (fun t => mkComp (t_type t) KBytes (t_val t)) l) = Ok l) as ->.
    { apply comps_ok. split; [assumption|]. rewrite map_map. cbn. rewrite map_ext with (g := fun x => x).
      - symmetry. apply map_id.
      - intros []; reflexivity. }
    cbn [bind]. rewrite concat_wires_eq, <- Hv. replace T_NAME with (t_type t) by lia.
    destruct t; apply tlv_make_intro; assumption.
  - unfold name_norm. rewrite map_map. reflexivity.
Qed.

(** * Links *)

Definition link_norm (l : link) : link :=
  mkLink (option_map name_norm (l_name l)) (l_keyid l) (l_digest l).

Lemma htt_tlv_tlv_ok ty h t : htt_tlv ty h = Ok t -> tlv_ok t.
Proof. intros H; apply htt_tlv_ok in H; tauto. Qed.
Lemma name_tlv_tlv_ok n t : name_tlv n = Ok t -> tlv_ok t.
Proof. intros H; apply name_tlv_ok in H; tauto. Qed.
#[export] Hint Resolve htt_tlv_tlv_ok name_tlv_tlv_ok : core.

Lemma link_wire_ok l w : link_wire l = Ok w ->
  exists l1 l2 l3, opt_tlvs name_tlv (l_name l) l1 /\
    opt_tlvs (htt_tlv T_KEYIDRESTR) (l_keyid l) l2 /\
    opt_tlvs (htt_tlv T_OBJHASHRESTR) (l_digest l) l3 /\
    Forall tlv_ok (l1 ++ l2 ++ l3) /\ w = wires (l1 ++ l2 ++ l3).
Proof.
  unfold link_wire. intros H. inv_bind H. inv_bind H. inv_bind H. mon. subst.
  wopt E l1. wopt E0 l2. wopt E1 l3. exists l1, l2, l3. repeat split; auto.
  - rewrite !Forall_app. repeat split; (eapply opt_tlvs_ok; [|eassumption]; eauto).
  - rewrite F, F0, F1. cbn [flatten]. rewrite app_nil_r, !wires_app. reflexivity.
Qed.

Lemma link_wire_intro l l1 l2 l3 :
  opt_tlvs name_tlv (l_name l) l1 ->
  opt_tlvs (htt_tlv T_KEYIDRESTR) (l_keyid l) l2 ->
  opt_tlvs (htt_tlv T_OBJHASHRESTR) (l_digest l) l3 ->
  link_wire l = Ok (wires (l1 ++ l2 ++ l3)).
Proof.
  intros O1 O2 O3. unfold link_wire.
  apply wire_opt_intro in O1 as (w1 & -> & F1). apply wire_opt_intro in O2 as (w2 & -> & F2).
  apply wire_opt_intro in O3 as (w3 & -> & F3). cbn [bind].
  rewrite F1, F2, F3. cbn [flatten]. rewrite app_nil_r, !wires_app. reflexivity.
Qed.

Lemma opt_tlvs_norm o l : opt_tlvs name_tlv o l -> opt_tlvs name_tlv (option_map name_norm o) l.
Proof.
  destruct o; cbn; [|auto]. intros (t & E & ->). exists t. rewrite name_tlv_norm. auto.
Qed.

Lemma link_wire_norm l w : link_wire l = Ok w -> link_wire (link_norm l) = Ok w.
Proof.
  intros H. apply link_wire_ok in H as (l1 & l2 & l3 & O1 & O2 & O3 & _ & ->).
  apply link_wire_intro; auto. apply opt_tlvs_norm; assumption.
Qed.

Lemma link_roundtrip l w : link_wire l = Ok w -> link_deserialize w = Ok (link_norm l).
Proof.
  intros H. pose proof (link_wire_norm _ _ H) as Hn.
  pose proof H as H'. apply link_wire_ok in H' as (l1 & l2 & l3 & O1 & O2 & O3 & Hall & ->).
  unfold link_deserialize. rewrite tlv_foreach_wires by assumption.
  rewrite !foldM_app.
  assert (foldM link_step (mkLink None None None) l1 = Ok (mkLink (option_map name_norm (l_name l)) None None)) as ->.
  { destruct (l_name l) as [n|]; cbn in O1.
    - destruct O1 as (t & E & ->). cbn [foldM]. unfold link_step at 1.
      pose proof (name_tlv_ok _ _ E) as (_ & Ht & _). rewrite Ht. cbn [l_name l_keyid l_digest].
      rewrite (name_roundtrip _ _ E). reflexivity.
    - subst. reflexivity. }
  cbn [bind]. rewrite ?foldM_app.
  assert (forall x, foldM link_step (mkLink x None None) l2 = Ok (mkLink x (l_keyid l) None)) as ->.
  { intros x. destruct (l_keyid l) as [h|]; cbn in O2.
    - destruct O2 as (t & E & ->). cbn [foldM]. unfold link_step at 1.
      pose proof (htt_tlv_ok _ _ _ E) as (_ & Ht & i & Hi & Hv). rewrite Ht, Hv. cbn [l_name l_keyid l_digest].
      rewrite <- (app_nil_r (tlv_wire i)), (hashv_deserialize_roundtrip _ _ _ Hi). reflexivity.
    - subst. reflexivity. }
  cbn [bind]. rewrite ?foldM_app.
  assert (forall x y, foldM link_step (mkLink x y None) l3 = Ok (mkLink x y (l_digest l))) as ->.
  { intros x y. destruct (l_digest l) as [h|]; cbn in O3.
    - destruct O3 as (t & E & ->). cbn [foldM]. unfold link_step at 1.
      pose proof (htt_tlv_ok _ _ _ E) as (_ & Ht & i & Hi & Hv). rewrite Ht, Hv. cbn [l_name l_keyid l_digest].
      rewrite <- (app_nil_r (tlv_wire i)), (hashv_deserialize_roundtrip _ _ _ Hi). reflexivity.
    - subst. reflexivity. }
  cbn [bind]. unfold link_norm in Hn. rewrite Hn. reflexivity.
Qed.

Lemma link_deserialize_sound w l : link_deserialize w = Ok l -> exists w', link_wire l = Ok w'.
Proof. unfold link_deserialize. intros H. mon. subst. eauto. Qed.

Lemma keylink_tlv_ok l t : keylink_tlv l = Ok t ->
  tlv_ok t /\ t_type t = T_KEYLINK /\ link_wire l = Ok (t_val t).
Proof. unfold keylink_tlv. intros H. mon. apply tlv_make_tlv_ok in H as (A & B & <-). auto. Qed.

Lemma keylink_roundtrip l t : keylink_tlv l = Ok t -> keylink_parse t = Ok (link_norm l).
Proof.
  intros H. pose proof H as H'. apply keylink_tlv_ok in H' as (Ho & Ht & Hw).
  unfold keylink_parse. rewrite Ht. run. rewrite (link_roundtrip _ _ Hw). cbn [bind].
  unfold keylink_tlv in *. rewrite (link_wire_norm _ _ Hw). rewrite Hw in H. cbn [bind] in *. rewrite H. reflexivity.
Qed.

(** * Timestamps *)

Lemma uint64_ok n a : uint64_to_array n = Ok a ->
  bytes_ok a /\ array_to_number a = n mod 2 ^ 64 /\ zlen a = 8.
Proof.
  unfold uint64_to_array. intros H. apply array_B_ok in H as [Hb ->].
  split; [exact Hb|]. split; [|reflexivity]. rewrite array_to_number_be by exact Hb.
  change (2 ^ 64) with 18446744073709551616. to_div. unfold be_acc; cbn [fold_left].
  clear Hb. lia.
Qed.

Lemma uint64_intro n : exists a, uint64_to_array n = Ok a.
Proof.
  unfold uint64_to_array. eexists. apply array_B_intro.
  to_div. rewrite ?bytes_ok_cons. repeat split; auto; apply mod_byte.
Qed.

Lemma create_uint64_ok ty n t : create_uint64 ty n = Ok t ->
  tlv_ok t /\ t_type t = ty /\ value_as_number t = n mod 2 ^ 64 /\ tlv_len t = 12.
Proof.
  unfold create_uint64. intros H. mon. apply tlv_make_ok in H as [Hok ->].
  apply uint64_ok in E as (A & B & C).
  repeat split; try apply Hok; auto. unfold tlv_len, tlv_length; cbn [t_val]. lia.
Qed.

Lemma create_uint64_intro ty n : 0 <= ty < 65536 -> exists t, create_uint64 ty n = Ok t.
Proof.
  intros Ht. destruct (uint64_intro n) as [a Ha]. unfold create_uint64. rewrite Ha. cbn [bind].
  exists (mkTlv ty a). apply tlv_make_intro. apply uint64_ok in Ha as (A & _ & C).
  unfold tlv_ok, tlv_length; cbn. repeat split; auto; lia.
Qed.

Lemma ts_tlv_ok ty f t : ts_tlv ty f = Ok t ->
  tlv_ok t /\ t_type t = ty /\ tlv_len t = 12 /\
  exists m, ts_msec f = Ok m /\ value_as_number t = m mod 2 ^ 64.
Proof.
  unfold ts_tlv. intros H. mon. apply create_uint64_ok in H as (A & B & C & D). eauto 8.
Qed.

(* A timestamp whose wire form reads back as the same float. *)
Definition ts_stable (f : fl) : Prop :=
  exists m, ts_msec f = Ok m /\ 0 <= m < 2 ^ 64 /\ ts_of_msec m = Ok f.

Lemma ts_roundtrip ty f t : ts_stable f -> ts_tlv ty f = Ok t -> ts_parse ty t = Ok f.
Proof.
  intros (m & Hm & Hr & Hf) H. pose proof H as H'. apply ts_tlv_ok in H' as (Ho & Ht & _ & m' & Hm' & Hv).
  unfold ts_parse. rewrite Ht, Hv. run. rewrite Hm in Hm'. injection Hm' as <-.
  rewrite Z.mod_small by assumption. run. reflexivity.
Qed.

Lemma fl_round_le a b : 0 <= a -> 0 < b ->
  0 <= fl_num (fl_round a b) /\
  fl_num (fl_round a b) * b <= 2 * a * fl_den (fl_round a b) /\ 0 < fl_den (fl_round a b).
Proof.
  intros Ha Hb. unfold fl_round. destruct (a =? 0) eqn:E; [assert (a = 0) as -> by lia; change (fl_num (mkFl 0 0)) with 0; change (fl_den (mkFl 0 0)) with 1; lia|].
  pose proof (fl_exp_spec a b ltac:(lia) Hb) as X. cbn zeta in X. set (e := fl_exp a b) in *. clearbody e.
  set (P := 2 ^ Z.max 0 e) in *. set (N := 2 ^ Z.max 0 (- e)) in *.
  assert (HP : 0 < P) by (apply pow2_pos; lia). assert (HN : 0 < N) by (apply pow2_pos; lia).
  pose proof (rne_bound (a * N) (b * P) ltac:(nia)) as R.
  unfold fl_num, fl_den; cbn [fm fe]. fold P. fold N. set (q := rne _ _) in *. clearbody q P N.
  set (z := 2 ^ 52) in *. assert (1 < z) by reflexivity. clearbody z.
  split; [nia|]. split; [|assumption].
  assert (2 * q * (b * P) <= 2 * (a * N) + b * P) by nia.
  assert (b * P <= a * N) by nia. nia.
Qed.

Lemma fl_finite_le a b : 0 <= a -> 0 < b -> a < 2 ^ 1000 * b -> fl_finite (fl_round a b) = true.
Proof.
  intros Ha Hb H. pose proof (fl_round_le a b Ha Hb) as (H0 & H1 & H2).
  unfold fl_finite. apply Z.ltb_lt. set (N := fl_num _) in *. set (D := fl_den _) in *. clearbody N D.
  change (2 ^ 1024) with (2 ^ 1000 * 2 ^ 24). change (2 ^ 24) with 16777216.
  set (z := 2 ^ 1000) in *. assert (0 < z) by reflexivity. clearbody z. nia.
Qed.

Lemma ts_of_msec_intro m : 0 <= m < 2 ^ 900 ->
  ts_of_msec m = Ok (fl_div_Z (fl_of_Z m) 1000) /\
  exists k, ts_msec (fl_div_Z (fl_of_Z m) 1000) = Ok k /\
            k = fl_trunc (fl_mul_Z (fl_div_Z (fl_of_Z m) 1000) 1000) /\ 0 <= k.
Proof.
  intros H. unfold ts_of_msec, ts_msec.
  change (2 ^ 900) with (2 ^ 800 * 2 ^ 100) in H.
  pose proof (fl_round_le m 1 ltac:(lia) ltac:(lia)) as (A0 & A1 & A2). fold (fl_of_Z m) in *.
  assert (fl_finite (fl_of_Z m) = true) as ->.
  { apply fl_finite_le; [lia|lia|]. change (2 ^ 1000) with (2 ^ 800 * 2 ^ 200).
    change (2^100) with 1267650600228229401496703205376 in *. change (2^200) with 1606938044258990275541962092341162602522202993782792835301376.
    set (z := 2 ^ 800) in *. assert (0 < z) by reflexivity. clearbody z. lia. }
  split; [reflexivity|].
  unfold fl_div_Z. set (N := fl_num (fl_of_Z m)) in *. set (D := fl_den (fl_of_Z m)) in *. clearbody N D.
  pose proof (fl_round_le N (D * 1000) ltac:(lia) ltac:(lia)) as (B0 & B1 & B2).
  set (g := fl_round N (D * 1000)) in *. 
  assert (FF : fl_finite (fl_mul_Z g 1000) = true).
  { unfold fl_mul_Z. apply fl_finite_le; [nia|assumption|].
    set (N' := fl_num g) in *. set (D' := fl_den g) in *. clearbody N' D'.
    change (2 ^ 1000) with (2 ^ 800 * 2 ^ 200).
    change (2^100) with 1267650600228229401496703205376 in *. change (2^200) with 1606938044258990275541962092341162602522202993782792835301376.
    set (z := 2 ^ 800) in *. assert (0 < z) by reflexivity. clearbody z.
    assert (N' * 1000 * D <= 4 * m * D' * D) by nia.
    assert (N' * 1000 <= 4 * m * D') by nia. nia. }
  rewrite FF. eexists; split; [reflexivity|]. split; [reflexivity|].
  unfold fl_trunc. pose proof (fl_round_le (fl_num g * 1000) (fl_den g) ltac:(nia) B2) as (C0 & C1 & C2).
  apply Z.div_pos; assumption.
Qed.

(* every millisecond count below 2^52 comes back as itself or one less *)
Lemma ts_reserialize m : 0 <= m < 2 ^ 52 ->
  exists f k, ts_of_msec m = Ok f /\ ts_msec f = Ok k /\ (k = m \/ k = m - 1).
Proof.
  intros H. destruct (ts_of_msec_intro m) as (E & k & Ek & Hk & _).
  { split; [lia|]. apply Z.lt_trans with (2 ^ 52); [lia|reflexivity]. }
  exists (fl_div_Z (fl_of_Z m) 1000), k. repeat split; auto. subst k.
  destruct (Z.eq_dec m 0) as [->|]; [left; reflexivity|]. apply msec_near. lia.
Qed.

Definition ts_good (m : Z) : Prop :=
  0 <= m < 1000 \/ exists j, 0 <= j /\ 1024 * 2 ^ j <= m < 1000 * 2 ^ (j + 1).

Lemma ts_good_stable m : 0 <= m < 2 ^ 52 -> ts_good m ->
  exists f, ts_of_msec m = Ok f /\ ts_msec f = Ok m /\ ts_stable f.
Proof.
  intros H G. destruct (ts_of_msec_intro m) as (E & k & Ek & Hk & _).
  { split; [lia|]. apply Z.lt_trans with (2 ^ 52); [lia|reflexivity]. }
  assert (k = m) as ->.
  { subst k. destruct G as [G|G]; [apply msec_small; assumption|].
    destruct (Z.eq_dec m 0) as [->|]; [reflexivity|]. apply msec_exact; [lia|assumption]. }
  exists (fl_div_Z (fl_of_Z m) 1000). repeat split; auto. exists m. repeat split; auto; try lia.
Qed.

Lemma ts_parse_sound ty t f : ts_parse ty t = Ok f -> exists t', ts_tlv ty f = Ok t'.
Proof. unfold ts_parse. intros H. mon. subst. eauto. Qed.

(** * Small fields *)

Lemma ptype_tlv_ok n t : ptype_tlv n = Ok t ->
  tlv_ok t /\ t_type t = T_PAYLDTYPE /\ 0 <= n <= 255 /\ value_as_number t = n.
Proof.
  unfold ptype_tlv, create_uint8. intros H. mon.
  apply tlv_make_ok in H as [Hok ->]. apply number_to_array_ok in E0 as (H0 & Hb & Hv & Hl).
  repeat split; try apply Hok; try lia. unfold value_as_number; cbn [t_val]. rewrite Hv.
  change (2 ^ 64) with 18446744073709551616. lia.
Qed.
Lemma ptype_roundtrip n t : ptype_tlv n = Ok t -> ptype_parse t = Ok n.
Proof.
  intros H. pose proof (ptype_tlv_ok _ _ H) as (Ho & Ht & Hr & Hv).
  unfold ptype_parse. rewrite Ht, Hv. run. reflexivity.
Qed.

Lemma fcid_tlv_ok n t : fcid_tlv n = Ok t ->
  tlv_ok t /\ t_type t = T_FINAL_CHUNK_ID /\ 0 <= n /\ value_as_number t = n mod 2 ^ 64.
Proof. intros H. apply int_tlv_ok in H. exact H. Qed.
Lemma fcid_roundtrip n t : n < 2 ^ 64 -> fcid_tlv n = Ok t -> fcid_parse t = Ok n.
Proof.
  intros Hn H. pose proof (fcid_tlv_ok _ _ H) as (Ho & Ht & Hr & Hv).
  unfold fcid_parse. rewrite Ht, Hv, Z.mod_small by lia. run. reflexivity.
Qed.

Lemma payload_tlv_ok b t : payload_tlv b = Ok t -> tlv_ok t /\ t = mkTlv T_PAYLOAD b.
Proof. unfold payload_tlv, octet_tlv. intros H. apply tlv_make_ok in H as [H ->]. auto. Qed.
Lemma payload_roundtrip b t : payload_tlv b = Ok t -> payload_parse t = Ok b.
Proof. apply octet_roundtrip. Qed.

(** * Content objects *)

Definition co_norm (c : content) : content :=
  mkCO (option_map name_norm (co_name c)) (co_ptype c) (co_payload c) (co_expiry c) (co_fcid c).

(* fields whose encoding is faithful *)
Definition co_wf (c : content) : Prop :=
  (forall f, co_expiry c = Some f -> ts_stable f) /\
  (forall n, co_fcid c = Some n -> n < 2 ^ 64).

Lemma ts_tlv_tlv_ok ty f t : ts_tlv ty f = Ok t -> tlv_ok t.
Proof. intros H; apply ts_tlv_ok in H; tauto. Qed.
Lemma ptype_tlv_tlv_ok n t : ptype_tlv n = Ok t -> tlv_ok t.
Proof. intros H; apply ptype_tlv_ok in H; tauto. Qed.
Lemma payload_tlv_tlv_ok n t : payload_tlv n = Ok t -> tlv_ok t.
Proof. intros H; apply payload_tlv_ok in H; tauto. Qed.
Lemma fcid_tlv_tlv_ok n t : fcid_tlv n = Ok t -> tlv_ok t.
Proof. intros H; apply fcid_tlv_ok in H; tauto. Qed.
#[export] Hint Resolve ts_tlv_tlv_ok ptype_tlv_tlv_ok payload_tlv_tlv_ok fcid_tlv_tlv_ok : core.

Lemma co_tlv_ok c t : co_tlv c = Ok t ->
  tlv_ok t /\ t_type t = T_OBJECT /\
  exists l1 l2 l3 l4 l5,
    opt_tlvs name_tlv (co_name c) l1 /\ opt_tlvs (ts_tlv T_EXPIRY) (co_expiry c) l2 /\
    opt_tlvs ptype_tlv (co_ptype c) l3 /\ opt_tlvs payload_tlv (co_payload c) l4 /\
    opt_tlvs fcid_tlv (co_fcid c) l5 /\
    Forall tlv_ok (l1 ++ l2 ++ l3 ++ l4 ++ l5) /\ t_val t = wires (l1 ++ l2 ++ l3 ++ l4 ++ l5).
Proof.
  unfold co_tlv. intros H. inv_bind H. inv_bind H. inv_bind H. inv_bind H. inv_bind H.
  apply tlv_make_tlv_ok in H as (A & B & C).
  wopt E l1. wopt E0 l2. wopt E1 l3. wopt E2 l4. wopt E3 l5.
  split; [assumption|]. split; [assumption|]. exists l1, l2, l3, l4, l5. repeat split; auto.
  - rewrite !Forall_app. repeat split; (eapply opt_tlvs_ok; [|eassumption]; eauto).
  - rewrite C, F, F0, F1, F2, F3. cbn [flatten]. rewrite app_nil_r, !wires_app. reflexivity.
Qed.

Lemma co_tlv_tlv_ok c t : co_tlv c = Ok t -> tlv_ok t.
Proof. intros H; apply co_tlv_ok in H; tauto. Qed.
#[export] Hint Resolve co_tlv_tlv_ok : core.

Lemma wire_opt_norm o : wire_opt name_tlv (option_map name_norm o) = wire_opt name_tlv o.
Proof. destruct o; cbn; [rewrite name_tlv_norm|]; reflexivity. Qed.

Lemma co_tlv_norm c : co_tlv (co_norm c) = co_tlv c.
Proof. unfold co_tlv, co_norm; cbn [co_name co_ptype co_payload co_expiry co_fcid]. rewrite wire_opt_norm. reflexivity. Qed.

Lemma co_roundtrip c t : co_wf c -> co_tlv c = Ok t -> co_parse t = Ok (co_norm c).
Proof.
  intros [Wt Wf] H. pose proof (co_tlv_norm c) as Hn.
  pose proof H as H'. apply co_tlv_ok in H' as (Ho & Ht & l1 & l2 & l3 & l4 & l5 & O1 & O2 & O3 & O4 & O5 & Hall & Hv).
  unfold co_parse. rewrite Ht, Hv. run. rewrite tlv_foreach_wires by assumption.
  rewrite !foldM_app.
  assert (foldM co_step (mkCO None None None None None) l1
          = Ok (mkCO (option_map name_norm (co_name c)) None None None None)) as ->.
  { destruct (co_name c) as [n|]; cbn [opt_tlvs] in O1.
    - destruct O1 as (u & E & ->). cbn [foldM]. unfold co_step at 1.
      pose proof (name_tlv_ok _ _ E) as (_ & Hu & _). rewrite Hu.
      rewrite (name_roundtrip _ _ E). reflexivity.
    - subst. reflexivity. }
  cbn [bind]. rewrite ?foldM_app.
  assert (forall x, foldM co_step (mkCO x None None None None) l2
          = Ok (mkCO x None None (co_expiry c) None)) as ->.
  { intros x. destruct (co_expiry c) as [n|]; cbn [opt_tlvs] in O2.
    - destruct O2 as (u & E & ->). cbn [foldM]. unfold co_step at 1.
      pose proof (ts_tlv_ok _ _ _ E) as (_ & Hu & _). rewrite Hu.
      rewrite (ts_roundtrip _ _ _ (Wt _ eq_refl) E). reflexivity.
    - subst. reflexivity. }
  cbn [bind]. rewrite ?foldM_app.
  assert (forall x y, foldM co_step (mkCO x None None y None) l3
          = Ok (mkCO x (co_ptype c) None y None)) as ->.
  { intros x y. destruct (co_ptype c) as [n|]; cbn [opt_tlvs] in O3.
    - destruct O3 as (u & E & ->). cbn [foldM]. unfold co_step at 1.
      pose proof (ptype_tlv_ok _ _ E) as (_ & Hu & _). rewrite Hu.
      rewrite (ptype_roundtrip _ _ E). reflexivity.
    - subst. reflexivity. }
  cbn [bind]. rewrite ?foldM_app.
  assert (forall x y z, foldM co_step (mkCO x y None z None) l4
          = Ok (mkCO x y (co_payload c) z None)) as ->.
  { intros x y z. destruct (co_payload c) as [n|]; cbn [opt_tlvs] in O4.
    - destruct O4 as (u & E & ->). cbn [foldM]. unfold co_step at 1.
      pose proof (payload_tlv_ok _ _ E) as (_ & Hu). replace (t_type u) with T_PAYLOAD by (subst u; reflexivity).
      rewrite (payload_roundtrip _ _ E). reflexivity.
    - subst. reflexivity. }
  cbn [bind]. rewrite ?foldM_app.
  assert (forall x y z w, foldM co_step (mkCO x y z w None) l5
          = Ok (mkCO x y z w (co_fcid c))) as ->.
  { intros x y z w. destruct (co_fcid c) as [n|]; cbn [opt_tlvs] in O5.
    - destruct O5 as (u & E & ->). cbn [foldM]. unfold co_step at 1.
      pose proof (fcid_tlv_ok _ _ E) as (_ & Hu & _). rewrite Hu.
      rewrite (fcid_roundtrip _ _ (Wf _ eq_refl) E). reflexivity.
    - subst. reflexivity. }
  cbn [bind]. fold (co_norm c). rewrite Hn, H. reflexivity.
Qed.

Lemma co_parse_sound t c : co_parse t = Ok c -> exists t', co_tlv c = Ok t'.
Proof. unfold co_parse. intros H. mon. subst. eauto. Qed.

(** * Validation sections *)

Lemma valg_tlv_ok v t : valg_tlv v = Ok t ->
  tlv_ok t /\ t_type t = T_VALIDATION_ALG /\ exists i, tlv_ok i /\ t_val t = tlv_wire i /\
  match v with
  | VCrc32c => i = mkTlv T_CRC32C []
  | VRsa kid pk kl st =>
    t_type i = T_RSA_SHA256 /\
    exists k l2 l3 s, htt_tlv T_KEYID kid = Ok k /\
      opt_tlvs pubkey_tlv pk l2 /\ opt_tlvs keylink_tlv kl l3 /\
      ts_tlv T_SIGTIME st = Ok s /\
      Forall tlv_ok ([k] ++ l2 ++ l3 ++ [s]) /\
      t_val i = wires ([k] ++ l2 ++ l3 ++ [s])
  end.
Proof.
  destruct v as [|kid pk kl st]; cbn [valg_tlv]; intros H.
  - mon. apply tlv_make_tlv_ok in H as (A & B & C). apply tlv_make_ok in E as [E ->].
    split; [assumption|]. split; [assumption|]. eexists; eauto.
  - inv_bind H. inv_bind H. inv_bind H. inv_bind H. inv_bind H.
    apply tlv_make_tlv_ok in H as (A & B & C). apply tlv_make_tlv_ok in E3 as (A' & B' & C').
    wopt E0 l2. wopt E1 l3. split; [assumption|]. split; [assumption|].
    exists a3. repeat (split; [assumption|]). exists a, l2, l3, a2. repeat split; auto.
    + rewrite !Forall_app. repeat split; eauto.
      * eapply opt_tlvs_ok; [|eassumption]. intros x y Hx. discriminate Hx.
      * eapply opt_tlvs_ok; [|eassumption]. intros x y Hx. apply keylink_tlv_ok in Hx; tauto.
    + rewrite C'. rewrite flatten_some, F, F0, flatten_some. cbn [flatten]. rewrite app_nil_r, !wires_app, !wires_one.
      reflexivity.
Qed.

Definition valg_wf (v : valg) : Prop :=
  match v with
  | VCrc32c => True
  | VRsa _ pk kl st => pk = None /\ kl = None /\ ts_stable st
  end.

Lemma valg_roundtrip now v t : valg_wf v -> valg_tlv v = Ok t -> valg_parse now t = Ok v.
Proof.
  intros W H. pose proof H as H'. apply valg_tlv_ok in H' as (Ho & Ht & i & Hi & Hv & D).
  unfold valg_parse. rewrite Ht, Hv, Z.eqb_refl. cbn [guard bind].
  rewrite <- (app_nil_r (tlv_wire i)), tlv_deserialize_wire by assumption. cbn [bind].
  destruct v as [|kid pk kl st].
  - subst i. cbn [t_type t_val]. rewrite H. reflexivity.
  - destruct W as (-> & -> & Ws). destruct D as (Hit & k & l2 & l3 & s & Hk & O2 & O3 & Hs & Hall & Hiv).
    cbn in O2, O3. subst l2 l3. cbn [app] in *. rewrite Hit. cbn [Z.eqb].
    unfold rsa_parse. rewrite Hiv. rewrite tlv_foreach_wires by assumption. cbn [foldM].
    unfold rsa_step.
    pose proof (htt_tlv_ok _ _ _ Hk) as (_ & Hkt & _). rewrite Hkt.
    rewrite (htt_roundtrip _ _ _ Hk). cbn [bind].
    pose proof (ts_tlv_ok _ _ _ Hs) as (_ & Hst & _). rewrite Hst.
    rewrite (ts_roundtrip _ _ _ Ws Hs). cbn [fst snd bind]. 
    change (T_KEYID =? T_KEYID) with true. change (T_SIGTIME =? T_KEYID) with false.
    change (T_SIGTIME =? T_SIGTIME) with true. change (T_RSA_SHA256 =? T_RSA_SHA256) with true.
    cbn iota. cbn [bind fst snd]. rewrite H. reflexivity.
Qed.

Lemma valg_tlv_tlv_ok n t : valg_tlv n = Ok t -> tlv_ok t.
Proof. intros H; apply valg_tlv_ok in H; tauto. Qed.

Lemma vpl_tlv_ok b t : vpl_tlv b = Ok t -> tlv_ok t /\ t = mkTlv T_VALIDATION_PAYLOAD b.
Proof. unfold vpl_tlv. intros H. apply tlv_make_ok in H as [H ->]. auto. Qed.
Lemma vpl_tlv_tlv_ok n t : vpl_tlv n = Ok t -> tlv_ok t.
Proof. intros H; apply vpl_tlv_ok in H; tauto. Qed.
#[export] Hint Resolve valg_tlv_tlv_ok vpl_tlv_tlv_ok : core.
Lemma vpl_roundtrip b t : vpl_tlv b = Ok t -> vpl_parse t = Ok b.
Proof. intros H. pose proof (vpl_tlv_ok _ _ H) as [_ ->]. unfold vpl_parse; cbn [t_type t_val]. run. reflexivity. Qed.

(** * Fixed header *)

Definition hdr_wf (h : header) : Prop := f_ver h = 1 /\ 8 <= f_plen h /\ 8 <= f_hlen h.

Lemma hdr_serialize_ok h w : hdr_serialize h = Ok w -> zlen w = 8 /\ bytes_ok w.
Proof.
  unfold hdr_serialize. destruct (f_fields h) as [[a b] c]. intros H. mon. subst w.
  rewrite !andb_true_iff in E. rewrite !is_byte_spec in E.
  split; [reflexivity|]. rewrite !bytes_ok_cons.
  destruct E as (((((((? & ?) & ?) & ?) & ?) & ?) & ?) & ?).
  repeat split; auto; try lia. 
Qed.

Lemma hdr_roundtrip h w r : hdr_wf h -> hdr_serialize h = Ok w -> hdr_deserialize (w ++ r) = Ok h.
Proof.
  intros (W1 & W2 & W3). unfold hdr_serialize. destruct (f_fields h) as [[a b] c] eqn:Ef.
  intros H. mon. subst w. cbn [app hdr_deserialize].
  assert (f_plen h / 256 * 256 + f_plen h mod 256 = f_plen h) as -> by lia.
  rewrite W1. replace (8 <=? f_plen h) with true by lia. replace (8 <=? f_hlen h) with true by lia.
  cbn [Z.eqb guard bind Pos.eqb]. destruct h; cbn in *. subst. reflexivity.
Qed.

(** * Packets *)

Lemma packet_wire_ok p w : packet_wire p = Ok w ->
  exists h c b l2 l3,
    hdr_serialize (p_hdr p) = Ok h /\ p_body p = BCO c /\ co_tlv c = Ok b /\
    opt_tlvs valg_tlv (p_alg p) l2 /\ opt_tlvs vpl_tlv (p_vpl p) l3 /\
    is_none (p_alg p) = is_none (p_vpl p) /\
    Forall tlv_ok ([b] ++ l2 ++ l3) /\ w = h ++ wires ([b] ++ l2 ++ l3) /\
    packet_hash_input p = Ok (wires ([b] ++ l2 ++ l3)).
Proof.
  unfold packet_wire, packet_hash_input. intros H. inv_bind H. inv_bind H. inv_bind H. inv_bind H. inv_bind H.
  apply guard_ok in E. apply eqb_prop in E. mon. subst.
  unfold body_wire in *. destruct (p_body p) as [c|] eqn:Eb; [|discriminate]. mon.
  rewrite E4, E2, E3. cbn [bind]. subst. wopt E2 l2. wopt E3 l3.
  exists a0, c, a4, l2, l3.
  assert (flatten [Some (tlv_wire a4); a2; a3] = wires ([a4] ++ l2 ++ l3)) as X.
  { rewrite flatten_some, F, F0. cbn [flatten]. rewrite app_nil_r, !wires_app, wires_one. reflexivity. }
  repeat split; auto.
  - rewrite !Forall_app. repeat split; eauto; (eapply opt_tlvs_ok; [|eassumption]; eauto).
  - rewrite <- X. reflexivity.
  - rewrite <- X. reflexivity.
Qed.

Definition packet_norm (p : packet) : packet :=
  mkPkt (p_hdr p) (match p_body p with BCO c => BCO (co_norm c) | b => b end) (p_alg p) (p_vpl p).

Definition packet_wf (p : packet) : Prop :=
  hdr_wf (p_hdr p) /\ f_hlen (p_hdr p) = 8 /\
  (forall c, p_body p = BCO c -> co_wf c) /\
  (forall v, p_alg p = Some v -> valg_wf v).

Lemma packet_wire_norm p : packet_wire (packet_norm p) = packet_wire p.
Proof.
  unfold packet_wire, packet_norm; cbn [p_hdr p_body p_alg p_vpl].
  destruct (p_body p); cbn [body_wire]; [rewrite co_tlv_norm|]; reflexivity.
Qed.

Lemma packet_roundtrip now p w : packet_wf p -> packet_wire p = Ok w ->
  packet_deserialize now w = Ok (packet_norm p).
Proof.
  intros (Wh & Wl & Wc & Wa) H. pose proof (packet_wire_norm p) as Hn.
  pose proof H as H'. apply packet_wire_ok in H' as (h & c & b & l2 & l3 & Hh & Hb & Hc & O2 & O3 & Hsame & Hall & -> & _).
  unfold packet_deserialize. rewrite (hdr_roundtrip _ _ _ Wh Hh). cbn [bind].
  rewrite Wl, zskip_app by (apply hdr_serialize_ok in Hh as [-> _]; reflexivity).
  rewrite tlv_foreach_wires by assumption. rewrite !foldM_app. cbn [foldM].
  unfold packet_step at 1. pose proof (co_tlv_ok _ _ Hc) as (_ & Ht & _). rewrite Ht.
  rewrite (co_roundtrip _ _ (Wc _ Hb) Hc). cbn [Z.eqb T_OBJECT Pos.eqb is_none guard bind]. rewrite ?foldM_app.
  assert (foldM (packet_step now) (Some (co_norm c), None, None) l2 = Ok (Some (co_norm c), p_alg p, None)) as ->.
  { destruct (p_alg p) as [v|] eqn:Ev; cbn [opt_tlvs] in O2.
    - destruct O2 as (u & E & ->). cbn [foldM]. unfold packet_step.
      pose proof (valg_tlv_ok _ _ E) as (_ & Hu & _). rewrite Hu.
      rewrite (valg_roundtrip now _ _ (Wa _ eq_refl) E). reflexivity.
    - subst. reflexivity. }
  cbn [bind]. rewrite ?foldM_app.
  assert (foldM (packet_step now) (Some (co_norm c), p_alg p, None) l3 = Ok (Some (co_norm c), p_alg p, p_vpl p)) as ->.
  { destruct (p_vpl p) as [v|] eqn:Ev; cbn [opt_tlvs] in O3.
    - destruct O3 as (u & E & ->). cbn [foldM]. unfold packet_step.
      pose proof (vpl_tlv_ok _ _ E) as (_ & Hu). replace (t_type u) with T_VALIDATION_PAYLOAD by (subst u; reflexivity).
      rewrite (vpl_roundtrip _ _ E). destruct (p_alg p); [reflexivity|]. cbn in Hsame. discriminate.
    - subst. reflexivity. }
  cbn [bind]. unfold packet_norm in *. rewrite Hb in *. rewrite Hn, H. reflexivity.
Qed.

(** * Which exceptions the parsers can raise *)

(* solve errs goals by following the program *)
Ltac errs_tac lem :=
  repeat first
    [ assumption
    | apply errs_ok
    | (apply errs_err; cbn; tauto)
    | (apply errs_guard; cbn; tauto)
    | (apply tlv_make_errs; cbn; tauto)
    | (apply array_B_errs; cbn; tauto)
    | (apply number_to_array_errs; cbn; tauto)
    | (apply int_tlv_errs; cbn; tauto)
    | (apply int_parse_errs; cbn; tauto)
    | (apply octet_parse_errs; cbn; tauto)
    | (eapply errs_incl; [lem|intros ? ?; cbn in *; tauto])
    | (apply errs_bind; [|intros ? ?])
    | match goal with
      | |- errs (if ?c then _ else _) _ => destruct c eqn:?
      | |- errs (match ?c with _ => _ end) _ => destruct c eqn:?
      | |- errs (let '(_, _) := ?c in _) _ => destruct c eqn:?
      end ].

Lemma tlv_ok_val t : tlv_ok t -> bytes_ok (t_val t).
Proof. intros (_ & _ & H); exact H. Qed.
#[export] Hint Resolve tlv_ok_val : core.

Lemma mapM_errs {A B} (f : A -> res B) l E : (forall a, errs (f a) E) -> errs (mapM f l) E.
Proof.
  intros H. induction l as [|a l IH]; cbn [mapM]; [apply errs_ok|].
  apply errs_bind; [apply H|]. intros b _. apply errs_bind; [exact IH|]. intros; apply errs_ok.
Qed.

Lemma wire_opt_errs {A} (enc : A -> res tlv) o E : (forall a, errs (enc a) E) -> errs (wire_opt enc o) E.
Proof. intros H. destruct o; cbn [wire_opt]; errs_tac fail. apply H. Qed.

Lemma name_tlv_errs n : errs (name_tlv n) [OverflowError].
Proof. unfold name_tlv. errs_tac fail. apply mapM_errs. intros. unfold comp_tlv. errs_tac fail. Qed.

Lemma name_parse_errs t : tlv_ok t -> errs (name_parse t) [RuntimeError; ParseError; OverflowError].
Proof.
  intros Ho. unfold name_parse. errs_tac ltac:(apply name_tlv_errs).
  apply tlv_foreach_errs; [cbn; tauto| |auto].
  intros. unfold name_step, comp_tlv. errs_tac fail.
Qed.

Lemma hashv_tlv_errs h : errs (hashv_tlv h) [OverflowError].
Proof. unfold hashv_tlv. errs_tac fail. Qed.
Lemma hashv_deserialize_errs b : bytes_ok b -> errs (hashv_deserialize b) [ParseError; OverflowError].
Proof.
  intros. unfold hashv_deserialize, hashv_parse. errs_tac ltac:(apply hashv_tlv_errs).
  apply tlv_deserialize_errs; [assumption|cbn; tauto].
Qed.
Lemma htt_tlv_errs ty h : errs (htt_tlv ty h) [OverflowError].
Proof. unfold htt_tlv. errs_tac ltac:(apply hashv_tlv_errs). Qed.
Lemma htt_parse_errs ty t : tlv_ok t -> errs (htt_parse ty t) [CannotParseError; ParseError; OverflowError].
Proof.
  intros. unfold htt_parse.
  errs_tac ltac:(first [apply htt_tlv_errs | apply hashv_deserialize_errs; auto]).
Qed.

Lemma link_wire_errs l : errs (link_wire l) [OverflowError].
Proof.
  unfold link_wire. errs_tac fail; apply wire_opt_errs; intros;
  first [apply name_tlv_errs | apply htt_tlv_errs].
Qed.
Lemma link_deserialize_errs b : bytes_ok b ->
  errs (link_deserialize b) [RuntimeError; ParseError; OverflowError; AssertionError; ValueError].
Proof.
  intros. unfold link_deserialize. errs_tac ltac:(apply link_wire_errs).
  apply tlv_foreach_errs; [cbn; tauto| |assumption].
  intros s t Ht. unfold link_step.
  errs_tac ltac:(first [apply name_parse_errs; assumption | apply hashv_deserialize_errs; auto]).
Qed.
Lemma keylink_tlv_errs l : errs (keylink_tlv l) [OverflowError].
Proof. unfold keylink_tlv. errs_tac ltac:(apply link_wire_errs). Qed.
Lemma keylink_parse_errs t : tlv_ok t ->
  errs (keylink_parse t) [TypeError; RuntimeError; ParseError; OverflowError; AssertionError; ValueError].
Proof.
  intros. unfold keylink_parse.
  errs_tac ltac:(first [apply link_deserialize_errs; auto | apply keylink_tlv_errs]).
Qed.

Lemma ts_tlv_errs ty f : errs (ts_tlv ty f) [OverflowError].
Proof. unfold ts_tlv, ts_msec, create_uint64, uint64_to_array. errs_tac fail. Qed.
Lemma ts_parse_errs ty t : errs (ts_parse ty t) [RuntimeError; OverflowError].
Proof. unfold ts_parse, ts_of_msec. errs_tac ltac:(apply ts_tlv_errs). Qed.
Lemma ptype_tlv_errs n : errs (ptype_tlv n) [AssertionError; OverflowError].
Proof. unfold ptype_tlv, create_uint8. errs_tac fail. Qed.
Lemma ptype_parse_errs t : errs (ptype_parse t) [RuntimeError; AssertionError; OverflowError].
Proof. unfold ptype_parse. errs_tac ltac:(apply ptype_tlv_errs). Qed.
Lemma fcid_tlv_errs n : errs (fcid_tlv n) [OverflowError].
Proof. apply int_tlv_errs. cbn; tauto. Qed.
Lemma fcid_parse_errs t : errs (fcid_parse t) [RuntimeError; OverflowError].
Proof. unfold fcid_parse. errs_tac ltac:(apply fcid_tlv_errs). Qed.

Lemma co_tlv_errs c : errs (co_tlv c) [AssertionError; OverflowError].
Proof.
  unfold co_tlv. errs_tac fail; apply wire_opt_errs; intros; (eapply errs_incl;
  [first [apply name_tlv_errs | apply ts_tlv_errs | apply ptype_tlv_errs | apply fcid_tlv_errs |
   apply (tlv_make_errs _ _ [OverflowError]); cbn; tauto]|intros ? ?; cbn in *; tauto]).
Qed.

Lemma co_parse_errs t : tlv_ok t ->
  errs (co_parse t) [RuntimeError; AssertionError; ValueError; ParseError; CannotParseError; OverflowError].
Proof.
  intros. unfold co_parse. errs_tac ltac:(apply co_tlv_errs).
  apply tlv_foreach_errs; [cbn; tauto| |auto].
  intros s u Hu. unfold co_step, payload_parse.
  errs_tac ltac:(first [apply name_parse_errs; assumption | apply ptype_parse_errs |
    apply ts_parse_errs | apply fcid_parse_errs]).
Qed.

Lemma foldM_inv {A S} (P : S -> Prop) (f : S -> A -> res S) l :
  (forall s a s', In a l -> P s -> f s a = Ok s' -> P s') ->
  forall s s', P s -> foldM f s l = Ok s' -> P s'.
Proof.
  induction l as [|a l IH]; intros Hs s s' H0 H; cbn [foldM] in H.
  - mon. subst. assumption.
  - mon. eapply IH; [|eapply Hs; [left; reflexivity|exact H0|exact E]|exact H].
    intros ? ? ? Hin. apply Hs. right; assumption.
Qed.

Lemma tlv_foreach_ind {S} (P : S -> Prop) (step : S -> tlv -> res S) s s' buf :
  bytes_ok buf -> (forall s t s', tlv_ok t -> P s -> step s t = Ok s' -> P s') ->
  P s -> tlv_foreach step s buf = Ok s' -> P s'.
Proof.
  intros Hb Hs H0 H. apply tlv_foreach_inv in H as (l & Hl & _ & H); [|assumption].
  eapply foldM_inv; [|exact H0|exact H]. rewrite Forall_forall in Hl. intros ? ? ? Hin. apply Hs, Hl, Hin.
Qed.

Definition no_pubkey (v : valg) : Prop :=
  match v with VRsa _ (Some _) _ _ => False | _ => True end.
Lemma valg_tlv_errs v : no_pubkey v -> errs (valg_tlv v) [OverflowError].
Proof.
  destruct v as [|kid [pk|] kl st]; cbn [no_pubkey]; [intros _|tauto|intros _]; cbn [valg_tlv wire_opt];
  errs_tac ltac:(first [apply htt_tlv_errs | apply ts_tlv_errs]);
  apply wire_opt_errs; intros; first [apply keylink_tlv_errs | errs_tac fail].
Qed.
Lemma valg_parse_no_pubkey now t v : valg_parse now t = Ok v -> no_pubkey v.
Proof.
  unfold valg_parse, rsa_parse. intros H. do 2 inv_bind H.
  destruct (t_type a0 =? T_RSA_SHA256).
  - inv_bind H. destruct (fst a1); [|discriminate H]. inv_bind H. apply Ok_inj in H. subst v. exact I.
  - destruct (t_type a0 =? T_CRC32C); [|discriminate H]. do 2 inv_bind H. apply Ok_inj in H. subst v. exact I.
Qed.

Lemma valg_parse_errs now t : tlv_ok t ->
  errs (valg_parse now t) [RuntimeError; ValueError; ParseError; CannotParseError; OverflowError].
Proof.
  intros. unfold valg_parse. apply errs_bind; [errs_tac fail|]. intros _ _.
  apply errs_bind; [apply tlv_deserialize_errs; [auto|cbn; tauto]|]. intros i Hi.
  apply tlv_deserialize_inv in Hi as [Hi _]; [|auto].
  unfold rsa_parse. errs_tac ltac:(apply valg_tlv_errs; exact I).
  apply tlv_foreach_errs; [cbn; tauto| |auto].
  intros s u Hu. unfold rsa_step.
  errs_tac ltac:(first [apply htt_parse_errs; assumption | apply ts_parse_errs]).
Qed.

Lemma vpl_parse_errs t : errs (vpl_parse t) [RuntimeError; OverflowError].
Proof. unfold vpl_parse, vpl_tlv. errs_tac fail. Qed.

Definition packet_exns : list exn :=
  [RuntimeError; ValueError; TypeError; AssertionError; ParseError; CannotParseError;
   OverflowError; StructError].

Lemma packet_wire_errs p : (forall a, p_alg p = Some a -> no_pubkey a) -> errs (packet_wire p) [TypeError; StructError; OverflowError; AssertionError].
Proof.
  intros Hp. unfold packet_wire, hdr_serialize, body_wire.
  destruct (p_alg p) as [v|]; cbn [wire_opt];
  errs_tac ltac:(first [apply co_tlv_errs | apply valg_tlv_errs; apply Hp; reflexivity]).
  all: apply wire_opt_errs; intros; unfold vpl_tlv; errs_tac fail.
Qed.

Lemma packet_deserialize_errs now b : bytes_ok b -> errs (packet_deserialize now b) packet_exns.
Proof.
  intros Hb. unfold packet_deserialize, packet_exns.
  apply errs_bind. { unfold hdr_deserialize. errs_tac fail. }
  intros h Hh. apply errs_bind.
  - apply tlv_foreach_errs; [cbn; tauto| |apply bytes_ok_skipn; assumption].
    intros s t Ht. unfold packet_step.
    errs_tac ltac:(first [apply co_parse_errs; assumption | apply valg_parse_errs; assumption |
      apply vpl_parse_errs]).
  - intros s Hs.
    assert (Ha : forall a, snd (fst s) = Some a -> no_pubkey a).
    { revert Hs. apply (tlv_foreach_ind (fun s : pkt_state => forall a, snd (fst s) = Some a -> no_pubkey a));
      [apply bytes_ok_skipn; assumption| |discriminate].
      clear. intros [[b a] v] t s' Ht Hn H. cbn [fst snd] in Hn. unfold packet_step in H.
      repeat match type of H with (if ?b then _ else _) = _ => destruct b end;
        repeat inv_bind H; try discriminate H; apply Ok_inj in H; subst s'; cbn [fst snd]; auto.
      intros x [= <-]. eapply valg_parse_no_pubkey; eassumption. }
    destruct s as [[b' a'] v']. cbn [fst snd] in Ha.
    errs_tac ltac:(apply packet_wire_errs; exact Ha).
Qed.

(** * Parsed objects *)

Lemma co_parse_norm t c : tlv_ok t -> co_parse t = Ok c -> co_norm c = c.
Proof.
  intros Ho H. unfold co_parse in H. mon. subst.
  revert E0. apply (tlv_foreach_ind (fun c => co_norm c = c)); [auto| |reflexivity].
  clear. intros s t s' Ht Hn H. unfold co_step in H.
  repeat match type of H with (if ?b then _ else _) = _ => destruct b end; mon; subst;
  destruct s as [n1 p1 b1 e1 f1]; unfold co_norm in *; cbn [co_name co_ptype co_payload co_expiry co_fcid option_map] in *;
  try congruence.
  apply name_parse_sound in E0 as [_ ->]; [reflexivity|assumption].
Qed.
