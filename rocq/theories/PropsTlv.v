(* C01-C05: TLV framing and integers. *)
From Coq Require Import ZArith List Bool Lia ZifyBool.
From Verif Require Import Py Tlv Core Spec TlvProofs CoreProofs.
Import ListNotations.
Open Scope Z_scope.
Ltac Zify.zify_post_hook ::= Z.div_mod_to_equations.

Lemma all_bytes_ok l : all_bytes l <-> bytes_ok l.
Proof. unfold all_bytes, bytes_ok. rewrite Forall_forall. tauto. Qed.
Lemma frameable_ok ty v : frameable ty v <-> tlv_ok (mkTlv ty v).
Proof. unfold frameable, tlv_ok, tlv_length, zlen; cbn [t_type t_val]. rewrite all_bytes_ok. tauto. Qed.
Lemma frame_wire t : tlv_wire t = frame (t_type t) (t_val t).
Proof. unfold tlv_wire, frame, tlv_length, zlen. rewrite !tlv_encode16_eq. reflexivity. Qed.
Lemma be_value_acc a : be_value a = be_acc a 0.
Proof.
  induction a as [|b a IH]; [reflexivity|]. cbn [be_value]. rewrite IH.
  unfold be_acc at 2; cbn [fold_left]. fold (be_acc a (0 * 256 + b)).
  rewrite (be_acc_val a (0 * 256 + b)). unfold zlen. lia.
Qed.
Lemma be_value_spec a : bytes_ok a -> array_to_number a = be_value a.
Proof. intros. rewrite be_value_acc. apply array_to_number_be; assumption. Qed.

(** C01: a representable TLV is built, has the framed wire image, and is read
    back from any buffer that starts with it; the reported length points at
    the rest. *)
Theorem C01_tlv_roundtrip : forall ty v rest, frameable ty v ->
  exists t, tlv_make ty v = Ok t /\ tlv_wire t = frame ty v /\
    tlv_deserialize (tlv_wire t ++ rest) = Ok t /\ t_type t = ty /\ t_val t = v /\
    zskip (tlv_len t) (tlv_wire t ++ rest) = rest.
Proof.
  intros ty v rest H. apply frameable_ok in H. exists (mkTlv ty v).
  split; [apply tlv_make_intro; assumption|]. split; [apply frame_wire|].
  split; [apply tlv_deserialize_wire; assumption|]. repeat split.
  apply zskip_app. rewrite zlen_tlv_wire. reflexivity.
Qed.

(** C01: anything else is refused. *)
Theorem C01_tlv_refused : forall ty v, ~ frameable ty v -> tlv_make ty v = Err OverflowError.
Proof. intros ty v H. rewrite frameable_ok in H. apply tlv_make_err. auto. Qed.

Example C01_ex : frameable 258 [7; 255] /\ frame 258 [7; 255] = [1; 2; 0; 2; 7; 255].
Proof. split; [|reflexivity]. split; [lia|]. split; [cbn; lia|]. intros b Hb; cbn in Hb; lia. Qed.
Example C01_ex_refused : tlv_make 65536 [1] = Err OverflowError.
Proof. reflexivity. Qed.

(** C02: the deserializer raises ParseError exactly when the header or the
    declared value is not completely there, and otherwise returns the framed
    prefix. *)
Definition declared (buf : list Z) : Z := be_value (firstn 2 (skipn 2 buf)).

Theorem C02_deserialize_exact : forall buf, all_bytes buf ->
  let complete := 4 <= zlen buf /\ 4 + declared buf <= zlen buf in
  (complete -> exists t, tlv_deserialize buf = Ok t /\
     tlv_wire t = firstn (Z.to_nat (4 + declared buf)) buf /\
     tlv_len t = 4 + declared buf /\ t_type t = be_value (firstn 2 buf)) /\
  (~ complete -> tlv_deserialize buf = Err ParseError).
Proof.
  intros buf Hb. apply all_bytes_ok in Hb. unfold declared.
  rewrite <- (be_value_spec (firstn 2 (skipn 2 buf))) by auto.
  rewrite <- (be_value_spec (firstn 2 buf)) by auto.
  pose proof (array_to_number_bound (firstn 2 (skipn 2 buf)) ltac:(auto)) as Hl.
  cbn zeta. split.
  - intros [H4 Hn]. unfold tlv_deserialize. replace (zlen buf <? 4) with false by lia.
    set (n := array_to_number (firstn 2 (skipn 2 buf))) in *.
    assert (zlen (ztake n (skipn 4 buf)) = n) as E.
    { rewrite zlen_ztake by lia. unfold zlen in *. rewrite skipn_length. lia. }
    rewrite E, Z.eqb_refl.
    set (ty := array_to_number (firstn 2 buf)).
    assert (Hty : 0 <= ty < 65536).
    { pose proof (array_to_number_bound (firstn 2 buf) ltac:(auto)) as Ht. fold ty in Ht.
      unfold zlen in Ht. rewrite firstn_length in Ht.
      replace (Z.of_nat (Nat.min 2 (length buf))) with 2 in Ht by (unfold zlen in *; lia).
      change (256 ^ 2) with 65536 in Ht. assumption. }
    assert (Hn2 : n < 65536).
    { unfold zlen in Hl, H4. rewrite firstn_length, skipn_length in Hl.
      replace (Z.of_nat (Nat.min 2 (length buf - 2))) with 2 in Hl by lia.
      change (256 ^ 2) with 65536 in Hl. lia. }
    assert (Hok : tlv_ok (mkTlv ty (ztake n (skipn 4 buf)))).
    { unfold tlv_ok, tlv_length; cbn [t_type t_val]. rewrite E. repeat split; auto; try lia. apply bytes_ok_firstn; auto. }
    exists (mkTlv ty (ztake n (skipn 4 buf))). split; [apply tlv_make_intro; assumption|].
    assert (D : tlv_deserialize buf = Ok (mkTlv ty (ztake n (skipn 4 buf)))).
    { unfold tlv_deserialize. replace (zlen buf <? 4) with false by lia. fold n. rewrite E, Z.eqb_refl.
      apply tlv_make_intro; assumption. }
    apply tlv_deserialize_inv in D as [_ D]; [|assumption].
    assert (L : tlv_len (mkTlv ty (ztake n (skipn 4 buf))) = 4 + n)
      by (unfold tlv_len, tlv_length; cbn [t_val]; lia).
    repeat split; auto.
    rewrite <- L. remember (mkTlv ty (ztake n (skipn 4 buf))) as u eqn:Eu. clear Eu Hok L.
    rewrite <- (zlen_tlv_wire u). rewrite D at 1. symmetry. apply ztake_app. reflexivity.
  - intros Hc. unfold tlv_deserialize. destruct (zlen buf <? 4) eqn:E4; [reflexivity|].
    set (n := array_to_number (firstn 2 (skipn 2 buf))) in *.
    assert (n =? zlen (ztake n (skipn 4 buf)) = false) as ->; [|reflexivity].
    rewrite zlen_ztake by lia. unfold zlen in *. rewrite skipn_length. lia.
Qed.

Example C02_ex : tlv_deserialize [0; 1; 0; 2; 9; 8; 7] = Ok (mkTlv 1 [9; 8]) /\
  tlv_deserialize [0; 1; 0; 2; 9] = Err ParseError /\ tlv_deserialize [0; 1; 0] = Err ParseError.
Proof. repeat split. Qed.

(** C03: a concatenation of frames determines the list of frames, and the
    parse loop used by every container visits exactly that list. *)
Definition frames (l : list (Z * list Z)) : list Z :=
  concat (map (fun p => frame (fst p) (snd p)) l).

Lemma frames_wires l : frames l = wires (map (fun p => mkTlv (fst p) (snd p)) l).
Proof.
  unfold frames, wires. rewrite map_map. f_equal. apply map_ext. intros [ty v].
  rewrite frame_wire. reflexivity.
Qed.
Lemma frames_ok l : (forall p, In p l -> frameable (fst p) (snd p)) ->
  Forall tlv_ok (map (fun p => mkTlv (fst p) (snd p)) l).
Proof.
  intros H. apply Forall_forall. intros t Ht. apply in_map_iff in Ht as (p & <- & Hp).
  apply frameable_ok, H, Hp.
Qed.

Theorem C03_unique_reading : forall l1 l2,
  (forall p, In p l1 -> frameable (fst p) (snd p)) ->
  (forall p, In p l2 -> frameable (fst p) (snd p)) ->
  frames l1 = frames l2 -> l1 = l2.
Proof.
  intros l1 l2 H1 H2 E. rewrite !frames_wires in E. apply wires_inj in E; try (apply frames_ok; assumption).
  assert (forall l, l = map (fun t => (t_type t, t_val t)) (map (fun p : Z * list Z => mkTlv (fst p) (snd p)) l)) as X.
  { intros l. rewrite map_map. cbn. rewrite map_ext with (g := fun x => x); [symmetry; apply map_id|intros []; reflexivity]. }
  rewrite (X l1), (X l2). f_equal. exact E.
Qed.

Theorem C03_parse_recovers : forall l,
  (forall p, In p l -> frameable (fst p) (snd p)) ->
  tlv_foreach (fun acc t => Ok (acc ++ [(t_type t, t_val t)])) [] (frames l) = Ok l.
Proof.
  intros l H. rewrite frames_wires, tlv_foreach_wires by (apply frames_ok; assumption).
  assert (forall acc, foldM (fun acc t => Ok (acc ++ [(t_type t, t_val t)])) acc
     (map (fun p : Z * list Z => mkTlv (fst p) (snd p)) l) = Ok (acc ++ l)) as X; [|apply X].
  clear H. induction l as [|[ty v] l IH]; intros acc; cbn; [rewrite app_nil_r; reflexivity|].
  rewrite IH, <- app_assoc. reflexivity.
Qed.

Example C03_ex :
  tlv_foreach (fun acc t => Ok (acc ++ [(t_type t, t_val t)])) []
    (frames [(1, [0;0]); (0, []); (65535, [1])]) = Ok [(1, [0;0]); (0, []); (65535, [1])].
Proof. reflexivity. Qed.

(** C04: variable length integers. *)
Theorem C04_varint_roundtrip : forall ty n, 0 <= ty < 65536 -> 0 <= n < 2 ^ 64 ->
  exists t, int_tlv ty n = Ok t /\ t_type t = ty /\ be_value (t_val t) = n /\
    zlen (t_val t) = int_width n /\ int_parse ty t = Ok n.
Proof.
  intros ty n Ht Hn. destruct (int_tlv_intro ty n Ht ltac:(lia)) as [t H]. exists t.
  pose proof (int_tlv_ok _ _ _ H) as (Ho & Hty & _ & Hv).
  repeat split; auto.
  - rewrite <- be_value_spec by apply Ho. unfold value_as_number in Hv. rewrite Hv. apply Z.mod_small; assumption.
  - unfold int_tlv, create_varint in H. mon. apply tlv_make_ok in H as [_ ->]. cbn [t_val].
    apply number_to_array_ok in E as (_ & _ & _ & ->). reflexivity.
  - eapply int_roundtrip; eauto.
Qed.

Theorem C04_varint_width_monotone : forall a b, a <= b -> int_width a <= int_width b.
Proof.
  intros a b H. unfold int_width. change (2^8) with 256. change (2^16) with 65536.
  change (2^24) with 16777216. change (2^32) with 4294967296.
  repeat match goal with |- context [if ?c then _ else _] => destruct c eqn:? end; lia.
Qed.

Theorem C04_varint_negative : forall ty n, n < 0 -> int_tlv ty n = Err OverflowError.
Proof. intros. unfold int_tlv, create_varint. rewrite number_to_array_neg by assumption. reflexivity. Qed.

(** Values of 2^64 and above are stored modulo 2^64. *)
Theorem C04_varint_wraps : forall ty n, 0 <= ty < 65536 -> 2 ^ 64 <= n ->
  exists t, int_tlv ty n = Ok t /\ int_parse ty t = Ok (n mod 2 ^ 64).
Proof.
  intros ty n Ht Hn. destruct (int_tlv_intro ty n Ht ltac:(lia)) as [t H]. exists t. split; [assumption|].
  pose proof (int_tlv_ok _ _ _ H) as (Ho & Hty & _ & Hv). unfold int_parse. rewrite Hty, Z.eqb_refl. cbn [guard bind].
  rewrite Hv. pose proof (Z.mod_pos_bound n (2 ^ 64) ltac:(lia)).
  destruct (int_tlv_intro ty (n mod 2 ^ 64) Ht ltac:(lia)) as [t' H']. rewrite H'. reflexivity.
Qed.

Example C04_ex : int_tlv 2 300 = Ok (mkTlv 2 [1; 44]) /\ int_parse 2 (mkTlv 2 [1; 44]) = Ok 300 /\
  int_tlv 2 (2 ^ 32) = Ok (mkTlv 2 [0; 0; 0; 1; 0; 0; 0; 0]).
Proof. repeat split. Qed.

(** C05: fixed width encoders. *)
Theorem C05_uint8 : forall ty n, 0 <= ty < 65536 ->
  (0 <= n < 2 ^ 8 -> exists t, create_uint8 ty n = Ok t /\ zlen (t_val t) = 1 /\ be_value (t_val t) = n) /\
  (~ 0 <= n < 2 ^ 8 -> create_uint8 ty n = Err AssertionError).
Proof.
  intros ty n Ht. change (2^8) with 256. unfold create_uint8. split; intros Hn.
  - replace ((0 <=? n) && (n <=? 255)) with true by lia. cbn [guard bind].
    destruct (number_to_array_intro n ltac:(lia)) as [a Ha]. rewrite Ha. cbn [bind].
    apply number_to_array_ok in Ha as (_ & Hb & Hv & Hl).
    change (2^8) with 256 in Hl. replace (n <? 256) with true in Hl by lia.
    exists (mkTlv ty a). split; [apply tlv_make_intro; unfold tlv_ok, tlv_length; cbn; repeat split; auto; lia|].
    cbn [t_val]. split; [assumption|]. rewrite <- be_value_spec, Hv by assumption.
    change (2^64) with 18446744073709551616. lia.
  - replace ((0 <=? n) && (n <=? 255)) with false by lia. reflexivity.
Qed.

Theorem C05_uint16 : forall n,
  (0 <= n < 2 ^ 16 -> exists a, uint16_to_array n = Ok a /\ zlen a = 2 /\ be_value a = n) /\
  (~ 0 <= n < 2 ^ 16 -> uint16_to_array n = Err AssertionError).
Proof.
  intros n. change (2^16) with 65536. unfold uint16_to_array. split; intros Hn.
  - replace ((0 <=? n) && (n <=? 65535)) with true by lia. cbn [guard bind].
    rewrite array_B_intro; [|to_div; rewrite !bytes_ok_cons; repeat split; auto; lia].
    eexists; split; [reflexivity|]. split; [reflexivity|]. to_div.
    rewrite be_value_acc. unfold be_acc; cbn [fold_left]. lia.
  - replace ((0 <=? n) && (n <=? 65535)) with false by lia. reflexivity.
Qed.

Theorem C05_uint24 : forall n,
  (0 <= n < 2 ^ 24 -> exists a, uint24_to_array n = Ok a /\ zlen a = 3 /\ be_value a = n) /\
  (~ 0 <= n < 2 ^ 24 -> uint24_to_array n = Err OverflowError).
Proof.
  intros n. change (2^24) with 16777216. unfold uint24_to_array. split; intros Hn.
  - rewrite array_B_intro; [|to_div; rewrite !bytes_ok_cons; repeat split; auto; lia].
    eexists; split; [reflexivity|]. split; [reflexivity|]. to_div.
    rewrite be_value_acc. unfold be_acc; cbn [fold_left]. lia.
  - apply array_B_err. split; [|reflexivity]. to_div. rewrite bytes_ok_cons. lia.
Qed.

Theorem C05_uint32 : forall n,
  (0 <= n < 2 ^ 32 -> exists a, uint32_to_array n = Ok a /\ zlen a = 4 /\ be_value a = n) /\
  (~ 0 <= n < 2 ^ 32 -> uint32_to_array n = Err OverflowError).
Proof.
  intros n. change (2^32) with 4294967296. unfold uint32_to_array. split; intros Hn.
  - rewrite array_B_intro; [|to_div; rewrite !bytes_ok_cons; repeat split; auto; lia].
    eexists; split; [reflexivity|]. split; [reflexivity|]. to_div.
    rewrite be_value_acc. unfold be_acc; cbn [fold_left]. lia.
  - apply array_B_err. split; [|reflexivity]. to_div. rewrite bytes_ok_cons. lia.
Qed.

(* 64 bits: never refused, reduced modulo 2^64 *)
Theorem C05_uint64 : forall n, exists a,
  uint64_to_array n = Ok a /\ zlen a = 8 /\ be_value a = n mod 2 ^ 64.
Proof.
  intros n. destruct (uint64_intro n) as [a H]. exists a. split; [assumption|].
  apply uint64_ok in H as (Hb & Hv & Hl). rewrite <- be_value_spec by assumption. auto.
Qed.

Example C05_ex : uint24_to_array 65793 = Ok [1; 1; 1] /\ uint16_to_array 65536 = Err AssertionError /\
  uint64_to_array (2 ^ 64 + 5) = Ok [0;0;0;0;0;0;0;5] /\ create_uint8 5 3 = Ok (mkTlv 5 [3]).
Proof. repeat split. Qed.

Print Assumptions C01_tlv_roundtrip.
Print Assumptions C02_deserialize_exact.
Print Assumptions C03_unique_reading.
Print Assumptions C03_parse_recovers.
Print Assumptions C04_varint_roundtrip.
Print Assumptions C05_uint64.
