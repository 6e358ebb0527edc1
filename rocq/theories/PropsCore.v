(* C06-C10, C19, C20: names, content objects, packets, timestamps. *)
From Coq Require Import ZArith List Bool Lia ZifyBool.
From Verif Require Import Py Tlv Float Core Spec TlvProofs FloatProofs CoreProofs PropsTlv.
Import ListNotations.
Open Scope Z_scope.
Ltac Zify.zify_post_hook ::= Z.div_mod_to_equations.

(** * C06: names *)

(* a name as the list of (type, bytes) of its components *)
Definition name_content (n : name) : list (Z * list Z) := map (fun c => (c_type c, c_val c)) n.

(* every list of frameable components of total size below 65536 is a name,
   with the concatenated frames as its body *)
Theorem C06_name_exists : forall n,
  (forall p, In p (name_content n) -> frameable (fst p) (snd p)) ->
  zlen (frames (name_content n)) < 65536 ->
  exists t, name_tlv n = Ok t /\ tlv_wire t = frame 0 (frames (name_content n)).
Proof.
  intros n Hc Hl. unfold name_tlv.
  assert (mapM comp_tlv n = Ok (map (fun c => mkTlv (c_type c) (c_val c)) n)) as E.
  { apply comps_ok. split; [|reflexivity]. apply Forall_forall. intros t Ht.
    apply in_map_iff in Ht as (c & <- & Hin). apply frameable_ok.
    apply (Hc (c_type c, c_val c)). apply in_map_iff. eauto. }
  rewrite E. cbn [bind]. rewrite concat_wires_eq.
  assert (wires (map (fun c => mkTlv (c_type c) (c_val c)) n) = frames (name_content n)) as W.
  { rewrite frames_wires. unfold name_content. rewrite map_map. reflexivity. }
  rewrite W. exists (mkTlv 0 (frames (name_content n))). split; [|apply frame_wire].
  apply tlv_make_intro. apply frameable_ok. split; [lia|]. split; [assumption|].
  apply all_bytes_ok. rewrite <- W. apply comps_ok in E as [E _].
  unfold wires. apply Forall_concat, Forall_map. eapply Forall_impl; [|exact E].
  intros a Ha. apply tlv_wire_ok. assumption.
Qed.

Theorem C06_name_roundtrip : forall n t, name_tlv n = Ok t ->
  exists n', name_parse t = Ok n' /\ name_content n' = name_content n /\ name_tlv n' = Ok t.
Proof.
  intros n t H. exists (name_norm n). split; [apply name_roundtrip; assumption|].
  split; [apply name_norm_view|]. rewrite name_tlv_norm. assumption.
Qed.

Definition ex_name : name :=
  [mkComp 1 KBytes [97; 98]; mkComp 1 KBytes []; mkComp 5 KArray [1; 0]; mkComp 0x1000 KBytes [255]].
Example C06_ex : exists t, name_tlv ex_name = Ok t /\ tlv_len t = 25.
Proof. eexists; split; reflexivity. Qed.

(** * C07: a parsed name compares equal to the original exactly when no
    component value is held as an array (chunk id, manifest id). *)
Lemma comps_eq_norm n : comps_eq n (name_norm n) = forallb (fun c => kind_eqb (c_kind c) KBytes) n.
Proof.
  induction n as [|c n IH]; [reflexivity|]. cbn [comps_eq name_norm map forallb].
  unfold comp_eq at 1; cbn [c_val c_kind]. rewrite Z.eqb_refl, beqb_refl, andb_true_r.
  fold (name_norm n). rewrite IH. reflexivity.
Qed.

Theorem C07_parsed_name_equal_iff : forall n t, name_tlv n = Ok t ->
  exists n', name_parse t = Ok n' /\
    (name_eq n n' = true <-> forall c, In c n -> c_kind c = KBytes).
Proof.
  intros n t H. exists (name_norm n). split; [apply name_roundtrip; assumption|].
  unfold name_eq. rewrite name_tlv_norm, H, comps_eq_norm. unfold tlv_eq.
  rewrite Z.eqb_refl, beqb_refl, andb_true_r, forallb_forall.
  split; intros X c Hc; specialize (X c Hc).
  - destruct (c_kind c); [discriminate|reflexivity].
  - rewrite X. reflexivity.
Qed.

(* the full claim "a parsed name equals the name that was sent" is false: any
   name built by append_chunk_id differs from its own parse *)
Theorem C07_parsed_name_equal_refuted : forall n i n1, append_chunk_id n i = Ok n1 ->
  exists t n2, name_tlv n1 = Ok t /\ name_parse t = Ok n2 /\ name_eq n1 n2 = false.
Proof.
  intros n i n1 H. unfold append_chunk_id in H. mon. subst n1.
  destruct (C07_parsed_name_equal_iff _ _ E1) as (n2 & Hp & Hi). exists a1, n2. split; [assumption|]. split; [assumption|].
  destruct (name_eq _ n2); [|reflexivity]. exfalso. destruct Hi as [Hi _].
  specialize (Hi eq_refl (mkComp T_CHUNKID KArray a)). rewrite in_app_iff in Hi.
  cbn in Hi. specialize (Hi (or_intror (or_introl eq_refl))). discriminate.
Qed.
Example C07_ex : exists n1, append_chunk_id [mkComp 1 KBytes [97]] 7 = Ok n1.
Proof. eexists; reflexivity. Qed.
Example C07_ex_segments : forall t, name_tlv [mkComp 1 KBytes [97]; mkComp 1 KBytes [98]] = Ok t ->
  exists n', name_parse t = Ok n' /\ name_eq [mkComp 1 KBytes [97]; mkComp 1 KBytes [98]] n' = true.
Proof. intros t [= <-]. eexists; split; reflexivity. Qed.

(** * C20: timestamps *)

(* milliseconds that the parse / re-serialize cycle keeps *)
Theorem C20_timestamp_exact : forall m, 0 <= m < 2 ^ 52 ->
  (m < 1000 \/ exists j, 0 <= j /\ 1024 * 2 ^ j <= m < 1000 * 2 ^ (j + 1)) ->
  exists f, ts_of_msec m = Ok f /\ ts_msec f = Ok m.
Proof.
  intros m H G. destruct (ts_good_stable m H) as (f & A & B & _); [|eauto].
  destruct G as [G|G]; [left; lia|right; exact G].
Qed.

(* from 3 November 2004 to 19 January 2038 *)
Theorem C20_timestamp_exact_now : forall m, 1099511627776 <= m < 2147483648000 ->
  exists f, ts_of_msec m = Ok f /\ ts_msec f = Ok m.
Proof.
  intros m H. apply C20_timestamp_exact.
  - change (2 ^ 52) with 4503599627370496. lia.
  - right. exists 30. change (2 ^ 30) with 1073741824. change (2 ^ (30 + 1)) with 2147483648. lia.
Qed.

(* in general the error is at most one millisecond, downwards *)
Theorem C20_timestamp_near : forall m, 0 <= m < 2 ^ 52 ->
  exists f k, ts_of_msec m = Ok f /\ ts_msec f = Ok k /\ m - 1 <= k <= m.
Proof. intros m H. destruct (ts_reserialize m H) as (f & k & A & B & C). exists f, k. repeat split; auto; lia. Qed.

(* "parsing and re-serializing keeps the milliseconds" is false for all values:
   1001 ms comes back as 1000 ms, and 2148000000001 ms (January 2038) loses one *)
Theorem C20_timestamp_refuted : exists m f k, 0 <= m < 2 ^ 52 /\
  ts_of_msec m = Ok f /\ ts_msec f = Ok k /\ k <> m.
Proof.
  exists 1001. do 2 eexists. split; [split; [lia|reflexivity]|].
  split; [vm_compute; reflexivity|]. split; [vm_compute; reflexivity|]. discriminate.
Qed.

(* the wire image of a timestamp object parsed from the wire *)
Theorem C20_wire : forall ty m t f, 0 <= m < 2 ^ 52 -> ts_of_msec m = Ok f -> ts_msec f = Ok m ->
  ts_tlv ty f = Ok t -> be_value (t_val t) = m /\ ts_parse ty t = Ok f.
Proof.
  intros ty m t f Hm Hf Hk H.
  assert (m < 2 ^ 64) by (apply Z.lt_trans with (2 ^ 52); [lia|reflexivity]).
  pose proof H as H'. apply ts_tlv_ok in H' as (Ho & _ & _ & m' & Hm' & Hv).
  rewrite Hk in Hm'. injection Hm' as <-. rewrite Z.mod_small in Hv by lia. split.
  - rewrite <- be_value_spec by auto. exact Hv.
  - apply ts_roundtrip; [|assumption]. exists m. repeat split; auto; lia.
Qed.

Example C20_ex : exists f t, ts_of_msec 1570000000123 = Ok f /\ ts_tlv 6 f = Ok t /\
  be_value (t_val t) = 1570000000123.
Proof. do 2 eexists. split; [vm_compute; reflexivity|]. (split; [vm_compute; reflexivity|vm_compute; reflexivity]). Qed.

(** * C08: content objects *)

(* a timestamp that survives the wire: it is m/1000 for a millisecond count
   that C20 keeps *)
Definition wire_time (f : fl) : Prop :=
  exists m, 0 <= m < 2 ^ 64 /\ ts_of_msec m = Ok f /\ ts_msec f = Ok m.
Lemma wire_time_stable f : wire_time f -> ts_stable f.
Proof. intros (m & A & B & C). exists m. auto. Qed.

(* two optional names with the same content *)
Definition same_name (a b : option name) : Prop :=
  match a, b with
  | None, None => True
  | Some x, Some y => name_content x = name_content y
  | _, _ => False
  end.
Lemma same_name_norm o : same_name (option_map name_norm o) o.
Proof. destruct o; cbn; [apply name_norm_view|exact I]. Qed.

Theorem C08_content_object_roundtrip : forall c t,
  (forall f, co_expiry c = Some f -> wire_time f) ->
  (forall n, co_fcid c = Some n -> n < 2 ^ 64) ->
  co_tlv c = Ok t ->
  exists c', co_parse t = Ok c' /\ same_name (co_name c') (co_name c) /\
    co_ptype c' = co_ptype c /\ co_payload c' = co_payload c /\
    co_expiry c' = co_expiry c /\ co_fcid c' = co_fcid c /\ co_tlv c' = Ok t.
Proof.
  intros c t He Hf H. exists (co_norm c).
  split; [apply co_roundtrip; [split; [intros f E; apply wire_time_stable, He, E|exact Hf]|assumption]|].
  split; [apply same_name_norm|]. repeat split. rewrite co_tlv_norm. assumption.
Qed.

(* every content object whose fields fit can be built *)
Theorem C08_content_object_exists : forall n p b,
  0 <= p < 256 -> all_bytes b ->
  (forall x, In x (name_content n) -> frameable (fst x) (snd x)) ->
  zlen (frames (name_content n)) + zlen b < 65000 ->
  exists t, co_tlv (mkCO (Some n) (Some p) (Some b) None None) = Ok t.
Proof.
  intros n p b Hp Hb Hn Hl. pose proof (zlen_nonneg b). pose proof (zlen_nonneg (frames (name_content n))).
  destruct (C06_name_exists n Hn ltac:(lia)) as (tn & En & Wn).
  destruct (C05_uint8 T_PAYLDTYPE p ltac:(unfold T_PAYLDTYPE; lia)) as [P _].
  destruct (P Hp) as (tp & Ep & Lp & _). 
  assert (Eb : payload_tlv b = Ok (mkTlv T_PAYLOAD b)).
  { apply tlv_make_intro, frameable_ok. split; [unfold T_PAYLOAD; lia|]. split; [unfold zlen in *; lia|assumption]. }
  unfold co_tlv; cbn [co_name co_ptype co_payload co_expiry co_fcid wire_opt].
  rewrite En. unfold ptype_tlv. rewrite Ep, Eb. cbn [bind].
  eexists. apply tlv_make_intro. cbn [flatten]. rewrite app_nil_r.
  pose proof (name_tlv_tlv_ok _ _ En) as On. pose proof (ptype_tlv_tlv_ok _ _ Ep) as Op.
  pose proof (payload_tlv_tlv_ok _ _ Eb) as Ob.
  unfold tlv_ok, tlv_length; cbn [t_type t_val]. split; [unfold T_OBJECT; lia|]. split.
  - rewrite !zlen_app, !zlen_tlv_wire. rewrite <- (zlen_tlv_wire tn), Wn. unfold frame.
    rewrite zlen_app. change (zlen [0 / 256; 0 mod 256; Z.of_nat (length (frames (name_content n))) / 256;
     Z.of_nat (length (frames (name_content n))) mod 256]) with 4.
    unfold tlv_len, tlv_length in *; cbn [t_val]. lia.
  - rewrite !bytes_ok_app. repeat split; apply tlv_wire_ok; assumption.
Qed.

Definition ex_co : content :=
  mkCO (Some ex_name) (Some 0) (Some [1; 2; 3]) (Some (mkFl 6585057280515899 (-22))) (Some 300).
Example C08_ex : (exists t, co_tlv ex_co = Ok t) /\ wire_time (mkFl 6585057280515899 (-22)).
Proof.
  split; [eexists; vm_compute; reflexivity|]. exists 1570000000123.
  repeat split; try lia; vm_compute; reflexivity.
Qed.

(** * C09: packets *)

Definition content_of (b : body) : option content :=
  match b with BCO c => Some c | BInterest _ => None end.

(* everything the validation algorithm decoder supports: CRC32C, or RSA without
   embedded key or key link *)
Definition decodable_alg (v : valg) : Prop :=
  match v with
  | VCrc32c => True
  | VRsa _ pk kl st => pk = None /\ kl = None /\ wire_time st
  end.
Lemma decodable_wf v : decodable_alg v -> valg_wf v.
Proof. destruct v; cbn; [auto|]. intros (A & B & C). repeat split; auto. apply wire_time_stable; assumption. Qed.

Definition wire_content (c : content) : Prop :=
  (forall f, co_expiry c = Some f -> wire_time f) /\ (forall n, co_fcid c = Some n -> n < 2 ^ 64).
Lemma wire_content_wf c : wire_content c -> co_wf c.
Proof. intros [A B]. split; [intros; apply wire_time_stable; auto|assumption]. Qed.

(* fields of two packets agree *)
Definition same_packet (a b : packet) : Prop :=
  p_hdr a = p_hdr b /\ p_alg a = p_alg b /\ p_vpl a = p_vpl b /\
  exists ca cb, p_body a = BCO ca /\ p_body b = BCO cb /\
    same_name (co_name ca) (co_name cb) /\ co_ptype ca = co_ptype cb /\
    co_payload ca = co_payload cb /\ co_expiry ca = co_expiry cb /\ co_fcid ca = co_fcid cb.

Lemma same_packet_norm p c : p_body p = BCO c -> same_packet (packet_norm p) p.
Proof.
  intros H. unfold same_packet, packet_norm; cbn [p_hdr p_alg p_vpl p_body]. rewrite H.
  repeat split. exists (co_norm c), c. repeat split. apply same_name_norm.
Qed.

Lemma packet_created c p a v : wire_content c -> (forall x, a = Some x -> decodable_alg x) ->
  f_ver (p_hdr p) = 1 -> f_plen (p_hdr p) >= 8 -> f_hlen (p_hdr p) = 8 ->
  p_body p = BCO c -> p_alg p = a -> p_vpl p = v -> packet_wf p.
Proof.
  intros. split; [split; [assumption|lia]|]. split; [assumption|]. split.
  - intros c' Hc'. assert (c' = c) as -> by congruence. apply wire_content_wf; assumption.
  - intros x Hx. apply decodable_wf. apply H0. congruence.
Qed.

Theorem C09_unsigned_packet_roundtrip : forall now c p w, wire_content c ->
  create_content_object c = Ok p -> packet_wire p = Ok w ->
  f_plen (p_hdr p) = zlen w /\
  exists p', packet_deserialize now w = Ok p' /\ same_packet p' p /\ packet_wire p' = Ok w.
Proof.
  intros now c p w Wc H Hw. unfold create_content_object in H. mon. subst p. clear E0.
  pose proof Hw as Hw'. apply packet_wire_ok in Hw' as (h & c' & b & l2 & l3 & Hh & Hb & Hc & O2 & O3 & _ & _ & Ew & _).
  cbn [p_body p_hdr p_alg p_vpl opt_tlvs] in *. subst l2 l3. injection Hb as <-.
  assert (a = b) as -> by congruence.
  split.
  - rewrite Ew. cbn [hdr_content f_plen app]. rewrite wires_cons, app_nil_r, zlen_app, zlen_tlv_wire.
    apply hdr_serialize_ok in Hh as [-> _]. lia.
  - set (p := mkPkt _ _ _ _) in *. exists (packet_norm p). split; [|split].
    + apply packet_roundtrip; [|assumption]. pose proof (tlv_len_ge b).
      eapply (packet_created c p None None); try reflexivity; auto; try discriminate. unfold p; cbn [p_hdr hdr_content f_plen]. lia.
    + eapply same_packet_norm. reflexivity.
    + rewrite packet_wire_norm. assumption.
Qed.

Theorem C09_signed_packet_roundtrip : forall now c a v p w, wire_content c -> decodable_alg a ->
  create_signed_content_object c a v = Ok p -> packet_wire p = Ok w ->
  f_plen (p_hdr p) = zlen w /\
  exists p', packet_deserialize now w = Ok p' /\ same_packet p' p /\ packet_wire p' = Ok w.
Proof.
  intros now c va v p w Wc Wa H Hw. unfold create_signed_content_object in H. mon. subst p. clear E2.
  pose proof Hw as Hw'. apply packet_wire_ok in Hw' as (h & c' & b & l2 & l3 & Hh & Hb & Hc & O2 & O3 & _ & _ & Ew & _).
  cbn [p_body p_hdr p_alg p_vpl opt_tlvs] in *. destruct O2 as (u2 & E2 & ->). destruct O3 as (u3 & E3 & ->).
  injection Hb as <-. assert (a = b) as -> by congruence. assert (a0 = u2) as -> by congruence.
  assert (a1 = u3) as -> by congruence.
  split.
  - rewrite Ew. cbn [hdr_content f_plen app]. rewrite !wires_cons, app_nil_r, !zlen_app, !zlen_tlv_wire.
    apply hdr_serialize_ok in Hh as [-> _]. lia.
  - set (p := mkPkt _ _ _ _) in *. exists (packet_norm p). split; [|split].
    + apply packet_roundtrip; [|assumption].
      pose proof (tlv_len_ge b). pose proof (tlv_len_ge u2). pose proof (tlv_len_ge u3).
      eapply (packet_created c p (Some va) (Some v)); try reflexivity; auto; [congruence|unfold p; cbn [p_hdr hdr_content f_plen]; lia].
    + eapply same_packet_norm. reflexivity.
    + rewrite packet_wire_norm. assumption.
Qed.

Definition ex_sha (b : bytes) : bytes := repeat 0 32.
Example C09_ex : exists p w, create_signed_content_object ex_co
    (VRsa (mkHash 1 (repeat 7 32)) None None (mkFl 6585057280515899 (-22))) [1; 2] = Ok p
  /\ packet_wire p = Ok w.
Proof. do 2 eexists; (split; [vm_compute; reflexivity|vm_compute; reflexivity]). Qed.

(* Interests cannot be put into a packet: the constructor raises TypeError *)
Theorem C09_interest_refuted : forall n hop t, interest_tlv n = Ok t -> 0 <= hop < 256 ->
  tlv_len t + 8 < 65536 -> create_interest n hop = Err TypeError.
Proof.
  intros n hop t H Hh Hl. pose proof (tlv_len_ge t). unfold create_interest. rewrite H. cbn [bind].
  rewrite array_B_intro by (rewrite !bytes_ok_cons; repeat split; auto; lia). cbn [bind].
  unfold packet_wire; cbn [p_alg p_vpl is_none Bool.eqb guard bind p_hdr p_body].
  unfold hdr_serialize, hdr_interest; cbn [f_fields f_ver f_ptype f_plen f_hlen].
  unfold is_byte. replace (_ && _)%bool with true by (unfold PT_INTEREST; lia). reflexivity.
Qed.
Example C09_interest_ex : exists t, interest_tlv (Some ex_name) = Ok t.
Proof. eexists; reflexivity. Qed.

(** * C10: the decoders terminate and raise only these exceptions.  The
    iteration bound of the model is never reached, and a quarter of the input
    length is enough. *)
Theorem C10_packet_decoder_total : forall now b, all_bytes b ->
  (exists p, packet_deserialize now b = Ok p) \/
  (exists e, packet_deserialize now b = Err e /\
     In e [RuntimeError; ValueError; TypeError; AssertionError; ParseError; CannotParseError;
           OverflowError; StructError]).
Proof.
  intros now b Hb. apply all_bytes_ok in Hb. pose proof (packet_deserialize_errs now b Hb) as H.
  destruct (packet_deserialize now b); [left; eauto|right; eauto].
Qed.

Theorem C10_content_decoder_total : forall t, frameable (t_type t) (t_val t) ->
  (exists c, co_parse t = Ok c) \/
  (exists e, co_parse t = Err e /\
     In e [RuntimeError; AssertionError; ValueError; ParseError; CannotParseError; OverflowError]).
Proof.
  intros t Ht. apply frameable_ok in Ht. assert (tlv_ok t) as Ho by (destruct t; assumption).
  pose proof (co_parse_errs t Ho) as H. destruct (co_parse t); [left; eauto|right; eauto].
Qed.

Theorem C10_name_decoder_total : forall t, frameable (t_type t) (t_val t) ->
  (exists n, name_parse t = Ok n) \/
  (exists e, name_parse t = Err e /\ In e [RuntimeError; ParseError; OverflowError]).
Proof.
  intros t Ht. apply frameable_ok in Ht. assert (tlv_ok t) as Ho by (destruct t; assumption).
  pose proof (name_parse_errs t Ho) as H. destruct (name_parse t); [left; eauto|right; eauto].
Qed.

(* four bytes per iteration: any bound of at least a quarter of the input gives
   the same result *)
Theorem C10_four_bytes_per_iteration : forall S (step : S -> tlv -> res S) s b n,
  all_bytes b -> (length b <= 4 * n)%nat -> tlv_loop n step s b = tlv_foreach step s b.
Proof. intros S step s b n Hb Hn. apply all_bytes_ok in Hb. apply tlv_loop_fuel; auto. lia. Qed.

Example C10_ex : packet_deserialize (mkFl 0 0) [1;1;0;12;0;0;0;8; 0;2;0;0] =
    Ok (mkPkt (mkHdr 1 1 12 (0,0,0) 8) (BCO (mkCO None None None None None)) None None)
  /\ packet_deserialize (mkFl 0 0) [1;1;0;12;0;0;0;8; 0;2;0] = Err ParseError.
Proof. split; reflexivity. Qed.

(** * C11 (names and content objects): serialization is a normal form *)
Theorem C11_name_normal_form : forall t n, frameable (t_type t) (t_val t) -> name_parse t = Ok n ->
  name_tlv n = Ok t.
Proof.
  intros t n Ht H. apply frameable_ok in Ht. apply name_parse_sound; [|assumption]. destruct t; assumption.
Qed.

Theorem C11_content_normal_form : forall t c, frameable (t_type t) (t_val t) -> co_parse t = Ok c ->
  wire_content c -> exists t', co_tlv c = Ok t' /\ co_parse t' = Ok c.
Proof.
  intros t c Ht H W. apply frameable_ok in Ht. assert (tlv_ok t) as Ho by (destruct t; assumption).
  destruct (co_parse_sound _ _ H) as [t' E]. exists t'. split; [assumption|].
  rewrite (co_roundtrip c t'); [f_equal; apply (co_parse_norm _ _ Ho H)|..]; [apply wire_content_wf; assumption|assumption].
Qed.
(* without the side condition it fails: a parsed expiry time re-serializes to a
   different time, and so the content object (and its hash) changes *)
Theorem C11_content_normal_form_refuted : exists t c t', co_parse t = Ok c /\ co_tlv c = Ok t' /\
  tlv_len t' = tlv_len t /\ t' <> t.
Proof.
  exists (mkTlv 2 [0;6;0;8;0;0;0;0;0;0;3;233]). do 2 eexists.
  split; [vm_compute; reflexivity|]. split; [vm_compute; reflexivity|]. split; [reflexivity|discriminate].
Qed.
Example C11_ex : exists c, co_parse (mkTlv 2 [0;1;0;1;9; 0;5;0;1;0]) = Ok c /\ wire_content c.
Proof.
  eexists; split; [reflexivity|]. split; cbn; intros; discriminate.
Qed.

(** * C19: what the packet hash covers *)
Section HashProps.
Variable sha256 : bytes -> bytes.

(* header fields never matter *)
Theorem C19_hash_ignores_header : forall p h,
  packet_hash sha256 (mkPkt h (p_body p) (p_alg p) (p_vpl p)) = packet_hash sha256 p.
Proof. reflexivity. Qed.

(* the three covered byte strings *)
Definition covered (p : packet) : res (bytes * option bytes * option bytes) :=
  b <- body_wire (p_body p) ;; a <- wire_opt valg_tlv (p_alg p) ;; v <- wire_opt vpl_tlv (p_vpl p) ;;
  Ok (b, a, v).

Lemma input_covered p1 p2 w1 w2 i : packet_wire p1 = Ok w1 -> packet_wire p2 = Ok w2 ->
  packet_hash_input p1 = Ok i -> packet_hash_input p2 = Ok i -> covered p1 = covered p2.
Proof.
  intros H1 H2 I1 I2.
  apply packet_wire_ok in H1 as (h & c & b & l2 & l3 & _ & Hb & Hc & O2 & O3 & S1 & A1 & _ & E1).
  apply packet_wire_ok in H2 as (h' & c' & b' & m2 & m3 & _ & Hb' & Hc' & P2 & P3 & S2 & A2 & _ & E2).
  rewrite I1 in E1. rewrite I2 in E2. apply Ok_inj in E1. apply Ok_inj in E2. subst i.
  apply wires_inj in E2; [|assumption..]. cbn [app] in E2. injection E2 as -> E2.
  unfold covered, body_wire. rewrite Hb, Hb', Hc, Hc'. cbn [bind].
  destruct (p_alg p1) as [a1|], (p_vpl p1) as [v1|]; cbn in S1; try discriminate;
  destruct (p_alg p2) as [a2|], (p_vpl p2) as [v2|]; cbn in S2; try discriminate;
  cbn [opt_tlvs] in *.
  - destruct O2 as (? & X1 & ->), O3 as (? & X2 & ->), P2 as (? & X3 & ->), P3 as (? & X4 & ->).
    cbn [app] in E2. injection E2 as -> ->. cbn [wire_opt]. rewrite X1, X2, X3, X4. reflexivity.
  - destruct O2 as (? & X1 & ->), O3 as (? & X2 & ->). subst. discriminate.
  - destruct P2 as (? & X1 & ->), P3 as (? & X2 & ->). subst. discriminate.
  - reflexivity.
Qed.

(* the hash is SHA-256 of everything emitted after the fixed header *)
Lemma hash_input_wire p w : packet_wire p = Ok w -> packet_hash_input p = Ok (skipn 8 w).
Proof.
  intros H. apply packet_wire_ok in H as (h & c & b & l2 & l3 & Hh & _ & _ & _ & _ & _ & _ & -> & E).
  rewrite E. f_equal. apply hdr_serialize_ok in Hh as (Hl & _). rewrite skipn_app.
  assert (length h = 8%nat) as L by (unfold zlen in Hl; lia).
  rewrite skipn_all2 by lia. rewrite L. reflexivity.
Qed.

Theorem C19_hash_is_sha_of_message : forall p w h, packet_wire p = Ok w ->
  packet_hash sha256 p = Ok h -> h = mkHash 1 (sha256 (skipn 8 w)).
Proof.
  intros p w h H E. unfold packet_hash in E. rewrite (hash_input_wire _ _ H) in E. cbn [bind] in E.
  mon. subst h. reflexivity.
Qed.

(* two packets with equal hash have the same body, algorithm and payload bytes,
   or these two messages are a SHA-256 collision *)
Theorem C19_hash_covers : forall p1 p2 w1 w2 h,
  packet_wire p1 = Ok w1 -> packet_wire p2 = Ok w2 ->
  packet_hash sha256 p1 = Ok h -> packet_hash sha256 p2 = Ok h ->
  covered p1 = covered p2 \/
  (skipn 8 w1 <> skipn 8 w2 /\ sha256 (skipn 8 w1) = sha256 (skipn 8 w2)).
Proof.
  intros p1 p2 w1 w2 h H1 H2 E1 E2.
  pose proof (hash_input_wire _ _ H1) as I1. pose proof (hash_input_wire _ _ H2) as I2.
  apply (C19_hash_is_sha_of_message _ _ _ H1) in E1. apply (C19_hash_is_sha_of_message _ _ _ H2) in E2.
  subst h. injection E2 as X.
  destruct (list_eq_dec Z.eq_dec (skipn 8 w1) (skipn 8 w2)) as [E|N].
  - left. rewrite E in I1. exact (input_covered _ _ _ _ _ H1 H2 I1 I2).
  - right. split; auto.
Qed.

(* and the converse: the same covered bytes give the same hash *)
Theorem C19_hash_determined : forall p1 p2, covered p1 = covered p2 ->
  packet_hash sha256 p1 = packet_hash sha256 p2.
Proof.
  assert (forall p, packet_hash_input p = ('(b, a, v) <- covered p ;; Ok (flatten [Some b; a; v]))) as X.
  { intros p. unfold packet_hash_input, covered. destruct (body_wire _); [|reflexivity]. cbn [bind].
    destruct (wire_opt valg_tlv _); [|reflexivity]. cbn [bind]. destruct (wire_opt vpl_tlv _); reflexivity. }
  intros p1 p2 H. unfold packet_hash. rewrite !X, H. reflexivity.
Qed.
End HashProps.

Example C19_ex : exists p w h, create_content_object ex_co = Ok p /\ packet_wire p = Ok w /\
  packet_hash ex_sha p = Ok h.
Proof. do 3 eexists; split; [vm_compute; reflexivity|]. (split; [vm_compute; reflexivity|vm_compute; reflexivity]). Qed.

Print Assumptions C06_name_roundtrip.
Print Assumptions C07_parsed_name_equal_iff.
Print Assumptions C08_content_object_roundtrip.
Print Assumptions C09_signed_packet_roundtrip.
Print Assumptions C10_packet_decoder_total.
Print Assumptions C11_content_normal_form.
Print Assumptions C19_hash_covers.
Print Assumptions C20_timestamp_exact.
