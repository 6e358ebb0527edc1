(* C08, C09: the exact wire layout of content objects and packets. *)
From Coq Require Import ZArith List Bool Lia ZifyBool.
From Verif Require Import Py Tlv Float Core Flic Spec WireSpec TlvProofs FloatProofs CoreProofs FlicProofs PropsTlv PropsCore PropsFlic.
Import ListNotations.
Open Scope Z_scope.
Ltac Zify.zify_post_hook ::= Z.div_mod_to_equations.
Opaque tlv_make tlv_wire tlv_deserialize.

(* the optional time and its milliseconds *)
Definition opt_ms (f : option fl) (ms : option Z) : Prop :=
  match f, ms with
  | None, None => True
  | Some x, Some m => ts_msec x = Ok m /\ 0 <= m < 2 ^ 64
  | _, _ => False
  end.
Lemma ts_wire ty f m t : ts_msec f = Ok m -> 0 <= m < 2 ^ 64 -> ts_tlv ty f = Ok t ->
  tlv_wire t = frame ty (be_bytes 8 m).
Proof.
  intros Hm Hr H. apply ts_tlv_ok in H as (Ho & Ht & Hl & m' & Hm' & Hv). rewrite Hm in Hm'. injection Hm' as <-.
  rewrite Z.mod_small in Hv by lia. apply frame_of; [assumption|].
  rewrite (be_bytes_unique (t_val t)) by apply Ho. unfold tlv_len, tlv_length, zlen in Hl.
  replace (length (t_val t)) with 8%nat by lia. rewrite <- be_value_spec by apply Ho. unfold value_as_number in Hv. rewrite Hv. reflexivity.
Qed.
Lemma ptype_wire p t : ptype_tlv p = Ok t -> tlv_wire t = frame 5 [p].
Proof.
  intros H. unfold ptype_tlv, create_uint8 in H. mon. apply tlv_make_tlv_ok in H as (_ & Ht & Hv).
  apply frame_of; [assumption|]. rewrite Hv. unfold number_to_array in E0. replace (p <? 0x100) with true in E0 by lia.
  apply array_B_ok in E0 as [_ ->]. reflexivity.
Qed.
Lemma opt_ms_wire ty f ms l : opt_ms f ms -> opt_tlvs (ts_tlv ty) f l ->
  wires l = opt_bytes (fun m => frame ty (be_bytes 8 m)) ms.
Proof.
  intros Hm H. destruct f as [f|], ms as [m|]; cbn in Hm; try contradiction; cbn [opt_tlvs opt_bytes] in *; [|subst; reflexivity].
  destruct H as (t & E & ->), Hm. rewrite wires_one. apply (ts_wire ty f m); assumption.
Qed.
Lemma content_wire c ms t : opt_ms (co_expiry c) ms -> (forall n, co_fcid c = Some n -> n < 2 ^ 64) -> co_tlv c = Ok t ->
  tlv_wire t = w_content (co_name c) ms (co_ptype c) (co_payload c) (co_fcid c).
Proof.
  intros Hm Hf H. apply co_tlv_ok in H as (_ & Ht & l1 & l2 & l3 & l4 & l5 & O1 & O2 & O3 & O4 & O5 & _ & Hv).
  apply frame_of; [assumption|]. rewrite Hv, !wires_app.
  f_equal; [eapply opt_wire; [eassumption|]; intros; apply name_wire; assumption|].
  f_equal; [eapply opt_ms_wire; eassumption|].
  f_equal; [eapply opt_wire; [eassumption|]; intros; apply ptype_wire; assumption|].
  f_equal; [eapply opt_wire; [eassumption|]; intros; apply octet_wire; assumption|].
  eapply opt_wire; [eassumption|]; intros; apply int_wire; auto.
Qed.
Theorem C08_content_object_layout : forall c ms t,
  opt_ms (co_expiry c) ms -> (forall n, co_fcid c = Some n -> n < 2 ^ 64) -> co_tlv c = Ok t ->
  tlv_wire t = w_content (co_name c) ms (co_ptype c) (co_payload c) (co_fcid c).
Proof. exact content_wire. Qed.

(* layout of the validation algorithm; the signature time in milliseconds *)
Definition alg_layout (v : valg) (w : list Z) : Prop :=
  match v with
  | VCrc32c => w = w_alg_crc32c
  | VRsa kid pk kl st => pk = None /\ forall m, ts_msec st = Ok m -> 0 <= m < 2 ^ 64 -> w = w_alg_rsa kid kl m
  end.
Lemma alg_wire v t : valg_tlv v = Ok t -> alg_layout v (tlv_wire t).
Proof.
  intros H. apply valg_tlv_ok in H as (_ & Ht & i & _ & Hv & Hi). destruct v as [|kid pk kl st]; cbn [alg_layout].
  - apply frame_of; [assumption|]. rewrite Hv, Hi. apply frame_of; reflexivity.
  - destruct Hi as (Ti & k & l2 & l3 & s & Ek & O2 & O3 & Es & _ & Vi).
    destruct pk as [d|]; cbn [opt_tlvs] in O2; [destruct O2 as (? & O2 & _); discriminate O2|subst l2].
    split; [reflexivity|]. intros m Hm Hr. cbn [app] in Vi.
    apply frame_of; [assumption|]. rewrite Hv. apply frame_of; [assumption|]. rewrite Vi, wires_cons, wires_app, !wires_one.
    f_equal; [apply htt_wire; assumption|].
    f_equal; [|apply (ts_wire 15 st m); assumption].
    eapply opt_wire; [eassumption|]. intros a u _ E. unfold keylink_tlv in E. inv_bind E.
    apply tlv_make_tlv_ok in E as (_ & A & B). apply frame_of; [assumption|]. rewrite B. apply link_wire_eq; assumption.
Qed.

Theorem C09_unsigned_packet_layout : forall c ms p w,
  opt_ms (co_expiry c) ms -> (forall n, co_fcid c = Some n -> n < 2 ^ 64) ->
  create_content_object c = Ok p -> packet_wire p = Ok w ->
  w = w_packet (w_content (co_name c) ms (co_ptype c) (co_payload c) (co_fcid c)).
Proof.
  intros c ms p w Hm Hf H Hw. unfold create_content_object in H. inv_bind H. inv_bind H. apply Ok_inj in H. subst p.
  apply packet_wire_ok in Hw as (h & c' & b & l2 & l3 & Hh & Hb & Hc & O2 & O3 & _ & _ & Ew & _).
  cbn [p_hdr p_body p_alg p_vpl opt_tlvs] in *. subst l2 l3. injection Hb as <-. assert (a = b) as -> by congruence.
  cbn [app] in Ew. rewrite wires_one, (content_wire c ms b Hm Hf Hc) in Ew. subst w.
  unfold w_packet. f_equal. unfold hdr_serialize in Hh. cbn [hdr_content f_fields f_ver f_ptype f_plen f_hlen] in Hh. inv_bind Hh. apply Ok_inj in Hh. subst h.
  rewrite <- (content_wire c ms b Hm Hf Hc). fold (zlen (tlv_wire b)). rewrite zlen_tlv_wire. reflexivity.
Qed.
Theorem C09_signed_packet_layout : forall c ms a v p w,
  opt_ms (co_expiry c) ms -> (forall n, co_fcid c = Some n -> n < 2 ^ 64) ->
  create_signed_content_object c a v = Ok p -> packet_wire p = Ok w ->
  exists wa, alg_layout a wa /\
  w = w_packet (w_content (co_name c) ms (co_ptype c) (co_payload c) (co_fcid c) ++ wa ++ w_val_payload v).
Proof.
  intros c ms va v p w Hm Hf H Hw. unfold create_signed_content_object in H. do 4 inv_bind H. apply Ok_inj in H. subst p.
  apply packet_wire_ok in Hw as (h & c' & b & l2 & l3 & Hh & Hb & Hc & O2 & O3 & _ & _ & Ew & _).
  cbn [p_hdr p_body p_alg p_vpl opt_tlvs] in *. destruct O2 as (u2 & X2 & ->), O3 as (u3 & X3 & ->).
  injection Hb as <-. assert (a = b) as -> by congruence. assert (a0 = u2) as -> by congruence. assert (a1 = u3) as -> by congruence.
  exists (tlv_wire u2). split; [apply alg_wire; assumption|].
  assert (W3 : tlv_wire u3 = w_val_payload v) by (unfold vpl_tlv in X3; apply tlv_make_tlv_ok in X3 as (_ & A & B); apply frame_of; assumption).
  cbn [app] in Ew. rewrite !wires_cons, app_nil_r in Ew. rewrite <- (content_wire c ms b Hm Hf Hc), <- W3.
  subst w. unfold w_packet. f_equal. unfold hdr_serialize in Hh. cbn [hdr_content f_fields f_ver f_ptype f_plen f_hlen] in Hh. inv_bind Hh. apply Ok_inj in Hh. subst h.
  fold (zlen (tlv_wire b ++ tlv_wire u2 ++ tlv_wire u3)). rewrite !zlen_app, !zlen_tlv_wire.
  replace (8 + (tlv_len b + (tlv_len u2 + tlv_len u3))) with (8 + tlv_len b + tlv_len u2 + tlv_len u3) by lia. reflexivity.
Qed.
Example C09_layout_ex : exists p w, create_signed_content_object ex_co
    (VRsa (mkHash 1 (repeat 7 32)) None None (mkFl 6585057280515899 (-22))) [1; 2] = Ok p /\ packet_wire p = Ok w /\
  opt_ms (co_expiry ex_co) (Some 1570000000123) /\ ts_msec (mkFl 6585057280515899 (-22)) = Ok 1570000000123 /\
  w = w_packet (w_content (Some ex_name) (Some 1570000000123) (Some 0) (Some [1;2;3]) (Some 300) ++
        w_alg_rsa (mkHash 1 (repeat 7 32)) None 1570000000123 ++ w_val_payload [1;2]).
Proof.
  do 2 eexists. split; [vm_compute; reflexivity|]. split; [vm_compute; reflexivity|].
  split; [split; [vm_compute; reflexivity|lia]|]. split; [vm_compute; reflexivity|]. vm_compute; reflexivity.
Qed.
Print Assumptions C08_content_object_layout.
Print Assumptions C09_unsigned_packet_layout.
Print Assumptions C09_signed_packet_layout.
