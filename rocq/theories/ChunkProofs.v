(* Proofs about splitting a file into data packets (SchemaImpl.chunk_data). *)
From Coq Require Import ZArith List Bool Lia ZifyBool.
From Verif Require Import Py Tlv Float Core TlvProofs CoreProofs Flic FlicProofs Crypto
  CryptoProofs Optimizer OptimizerProofs Tree TreeSpec TreeProofs.
Import ListNotations.
Open Scope Z_scope.
Opaque tlv_make tlv_wire tlv_deserialize.

(* ---------------- lengths ---------------- *)

Definition wlen (l : list tlv) : Z := zlen (wires l).
Lemma wlen_app a b : wlen (a ++ b) = wlen a + wlen b.
Proof. unfold wlen. rewrite wires_app, zlen_app. reflexivity. Qed.
Lemma wlen_one t : wlen [t] = tlv_len t.
Proof. unfold wlen. rewrite wires_one. apply zlen_tlv_wire. Qed.
Lemma wlen_nil : wlen [] = 0. Proof. reflexivity. Qed.
Lemma wlen_nonneg l : 0 <= wlen l. Proof. apply zlen_nonneg. Qed.

Lemma co_tlv_intro c l1 l2 l3 l4 l5 :
  opt_tlvs name_tlv (co_name c) l1 -> opt_tlvs (ts_tlv T_EXPIRY) (co_expiry c) l2 ->
  opt_tlvs ptype_tlv (co_ptype c) l3 -> opt_tlvs payload_tlv (co_payload c) l4 ->
  opt_tlvs fcid_tlv (co_fcid c) l5 ->
  wlen (l1 ++ l2 ++ l3 ++ l4 ++ l5) < 65536 ->
  co_tlv c = Ok (mkTlv T_OBJECT (wires (l1 ++ l2 ++ l3 ++ l4 ++ l5))).
Proof.
  intros O1 O2 O3 O4 O5 L.
  destruct (wire_opt_intro _ _ _ O1) as (w1 & E1 & F1).
  destruct (wire_opt_intro _ _ _ O2) as (w2 & E2 & F2).
  destruct (wire_opt_intro _ _ _ O3) as (w3 & E3 & F3).
  destruct (wire_opt_intro _ _ _ O4) as (w4 & E4 & F4).
  destruct (wire_opt_intro _ _ _ O5) as (w5 & E5 & F5).
  unfold co_tlv. rewrite E1, E2, E3, E4, E5. cbn [bind].
  rewrite F1, F2, F3, F4, F5. cbn [flatten]. rewrite app_nil_r.
  rewrite <- !wires_app. apply tlv_make_intro. split; [cbn [t_type]; unfold T_OBJECT, T_PAYLOAD, T_NAME; lia|]. split; [exact L|].
  apply bytes_ok_wires. rewrite !Forall_app.
  repeat split; (eapply opt_tlvs_ok; [|eassumption]; eauto).
Qed.

Lemma create_co_ok c p : create_content_object c = Ok p ->
  exists t, co_tlv c = Ok t /\ p = mkPkt (hdr_content (8 + tlv_len t)) (BCO c) None None /\
    packet_len p = Ok (8 + tlv_len t) /\ 8 + tlv_len t < 65536.
Proof.
  unfold create_content_object. intros H. apply bind_ok in H as (t & Et & H).
  apply bind_ok in H as (w & Ew & H). apply Ok_inj in H. subst p. exists t.
  split; [exact Et|]. split; [reflexivity|]. unfold packet_len. rewrite Ew. cbn [bind].
  apply packet_wire_ok in Ew as (h & c' & b & l2 & l3 & Hh & Hb & Hc & O2 & O3 & _ & _ & Ew & _).
  cbn [p_hdr p_body p_alg p_vpl opt_tlvs] in *. subst l2 l3. injection Hb as <-.
  assert (t = b) as -> by congruence. cbn [app] in Ew. rewrite wires_one in Ew. subst w.
  pose proof (hdr_serialize_ok _ _ Hh) as [L8 _]. rewrite zlen_app, L8, zlen_tlv_wire.
  split; [reflexivity|]. unfold hdr_serialize in Hh. cbn [hdr_content f_fields f_plen] in Hh.
  apply bind_ok in Hh as (u & Hg & _). apply guard_ok in Hg. lia.
Qed.

Lemma create_co_intro c t : co_tlv c = Ok t -> 8 + tlv_len t < 65536 ->
  exists p, create_content_object c = Ok p.
Proof.
  intros Et L. unfold create_content_object. rewrite Et. cbn [bind].
  unfold packet_wire. cbn [p_hdr p_body p_alg p_vpl is_none Bool.eqb guard bind wire_opt body_wire].
  unfold hdr_serialize. cbn [hdr_content f_fields f_ver f_ptype f_plen f_hlen].
  pose proof (tlv_len_ge t). unfold PT_CONTENT, is_byte.
  replace (0 <=? 8 + tlv_len t) with true by lia.
  replace (8 + tlv_len t <? 65536) with true by lia.
  change (8 <? 256) with true. change (1 <? 256) with true. change (0 <? 256) with true.
  cbn [Z.leb Z.compare andb guard bind]. rewrite Et. cbn [bind]. eauto.
Qed.

(* the length of a data packet in terms of its parts *)
Definition name_len (n : option name) : Z :=
  match n with None => 0 | Some n => match name_tlv n with Ok t => tlv_len t | Err _ => 0 end end.
Definition exp_len (e : option fl) : Z := match e with None => 0 | Some _ => 12 end.
Definition int_len (n : Z) : Z :=
  if n <? 2 ^ 8 then 1 else if n <? 2 ^ 16 then 2 else
  if n <? 2 ^ 24 then 3 else if n <? 2 ^ 32 then 4 else 8.
Definition fcid_len (f : option Z) : Z := match f with None => 0 | Some n => 4 + int_len n end.
Definition data_len (n : option name) (e : option fl) (b : bytes) (f : option Z) : Z :=
  8 + (4 + (name_len n + exp_len e + 5 + (4 + zlen b) + fcid_len f)).

Lemma name_len_tlvs n l : opt_tlvs name_tlv n l -> wlen l = name_len n.
Proof.
  destruct n as [n|]; cbn; [|intros ->; reflexivity]. intros (t & E & ->). rewrite E. apply wlen_one.
Qed.
Lemma exp_len_tlvs n l : opt_tlvs (ts_tlv T_EXPIRY) n l -> wlen l = exp_len n.
Proof.
  destruct n as [n|]; cbn; [|intros ->; reflexivity]. intros (t & E & ->).
  apply ts_tlv_ok in E as (_ & _ & L & _). rewrite wlen_one. exact L.
Qed.
Lemma int_tlv_len ty n t : int_tlv ty n = Ok t -> tlv_len t = 4 + int_len n.
Proof.
  unfold int_tlv, create_varint. intros H. mon. apply tlv_make_ok in H as [_ ->].
  apply number_to_array_ok in E as (_ & _ & _ & L). unfold tlv_len, tlv_length. cbn [t_val].
  rewrite L. reflexivity.
Qed.
Lemma fcid_len_tlvs n l : opt_tlvs fcid_tlv n l -> wlen l = fcid_len n.
Proof.
  destruct n as [n|]; cbn; [|intros ->; reflexivity]. intros (t & E & ->).
  rewrite wlen_one. eapply int_tlv_len. exact E.
Qed.
Lemma ptype_len p t : ptype_tlv p = Ok t -> tlv_len t = 5.
Proof.
  intros H. unfold ptype_tlv, create_uint8 in H. mon. apply tlv_make_tlv_ok in H as (_ & Ht & Hv).
  unfold tlv_len, tlv_length. rewrite Hv. apply number_to_array_ok in E0 as (_ & _ & _ & L).
  replace (p <? 2 ^ 8) with true in L by lia. lia.
Qed.

Lemma data_len_ok n b e f p :
  (c <- create_data n (Some b) e f ;; create_content_object c) = Ok p ->
  p_body p = BCO (mkCO n (Some PT_DATA) (Some b) e f) /\ p_alg p = None /\ p_vpl p = None /\
  packet_len p = Ok (data_len n e b f) /\ data_len n e b f < 65536 /\
  (exists l, opt_tlvs name_tlv n l) /\ (exists l, opt_tlvs (ts_tlv T_EXPIRY) e l) /\
  (exists l, opt_tlvs fcid_tlv f l) /\ bytes_ok b.
Proof.
  intros H. apply bind_ok in H as (c & Ec & H). unfold create_data in Ec.
  apply bind_ok in Ec as (t0 & Et & Ec). apply Ok_inj in Ec. subst c.
  apply create_co_ok in H as (t & Et' & -> & L & L'). assert (t0 = t) as -> by congruence.
  apply co_tlv_ok in Et as (Ot & Ht & l1 & l2 & l3 & l4 & l5 & O1 & O2 & O3 & O4 & O5 & _ & Hv).
  cbn [co_name co_ptype co_payload co_expiry co_fcid] in *.
  assert (8 + tlv_len t = data_len n e b f) as E.
  { unfold data_len, tlv_len, tlv_length. rewrite Hv. fold (wlen (l1 ++ l2 ++ l3 ++ l4 ++ l5)).
    rewrite !wlen_app, (name_len_tlvs _ _ O1), (exp_len_tlvs _ _ O2), (fcid_len_tlvs _ _ O5).
    cbn [opt_tlvs] in O3, O4. destruct O3 as (t3 & E3 & ->), O4 as (t4 & E4 & ->).
    rewrite !wlen_one, (ptype_len _ _ E3). apply payload_tlv_ok in E4 as (_ & ->).
    unfold tlv_len at 1, tlv_length. cbn [t_val]. lia. }
  rewrite E in *. cbn [p_body p_alg p_vpl]. repeat split; eauto.
  cbn [opt_tlvs] in O4. destruct O4 as (t4 & E4 & _). apply payload_tlv_ok in E4 as ((_ & _ & B) & ->).
  exact B.
Qed.

Lemma data_len_intro n b e f :
  (exists l, opt_tlvs name_tlv n l) -> (exists l, opt_tlvs (ts_tlv T_EXPIRY) e l) ->
  (exists l, opt_tlvs fcid_tlv f l) -> bytes_ok b -> data_len n e b f < 65536 ->
  exists p, (c <- create_data n (Some b) e f ;; create_content_object c) = Ok p.
Proof.
  intros (l1 & O1) (l2 & O2) (l5 & O5) B L. unfold create_data.
  set (c := mkCO n (Some PT_DATA) (Some b) e f). unfold data_len in L.
  pose proof (name_len_tlvs _ _ O1) as W1. pose proof (exp_len_tlvs _ _ O2) as W2.
  pose proof (fcid_len_tlvs _ _ O5) as W5. pose proof (wlen_nonneg l1). pose proof (wlen_nonneg l2).
  pose proof (wlen_nonneg l5).
  assert (exists t3, ptype_tlv PT_DATA = Ok t3) as (t3 & E3) by (vm_compute; eauto).
  assert (payload_tlv b = Ok (mkTlv T_PAYLOAD b)) as E4.
  { apply tlv_make_intro. split; [cbn [t_type]; unfold T_OBJECT, T_PAYLOAD, T_NAME; lia|]. split; [unfold tlv_length; cbn [t_val]; lia|exact B]. }
  assert (wlen (l1 ++ l2 ++ [t3] ++ [mkTlv T_PAYLOAD b] ++ l5) =
          name_len n + exp_len e + 5 + (4 + zlen b) + fcid_len f) as W.
  { rewrite !wlen_app, !wlen_one, (ptype_len _ _ E3), W1, W2, W5.
    unfold tlv_len, tlv_length. cbn [t_val]. lia. }
  assert (co_tlv c = Ok (mkTlv T_OBJECT (wires (l1 ++ l2 ++ [t3] ++ [mkTlv T_PAYLOAD b] ++ l5)))) as Et.
  { apply co_tlv_intro; cbn [c co_name co_ptype co_payload co_expiry co_fcid opt_tlvs]; eauto. lia. }
  rewrite Et. cbn [bind]. eapply create_co_intro; [exact Et|]. unfold tlv_len, tlv_length. cbn [t_val].
  unfold wlen in W. lia.
Qed.

(* ---------------- names ---------------- *)

Lemma int_len_mono a b : 0 <= a <= b -> int_len a <= int_len b.
Proof. unfold int_len. intros. repeat match goal with |- context [if ?c then _ else _] => destruct c eqn:? end; lia. Qed.
Lemma int_len_pos a : 1 <= int_len a.
Proof. unfold int_len. repeat match goal with |- context [if ?c then _ else _] => destruct c eqn:? end; lia. Qed.

Lemma name_app_tlv n c t : name_tlv (n ++ [c]) = Ok t ->
  exists l, mapM comp_tlv n = Ok l /\ tlv_ok (mkTlv (c_type c) (c_val c)) /\
    tlv_len t = 4 + (wlen l + (4 + zlen (c_val c))) /\ wlen l + (4 + zlen (c_val c)) < 65536.
Proof.
  intros H. apply name_tlv_ok in H as (Ho & _ & l & Hl & Hv). apply comps_ok in Hl as [Hf ->].
  rewrite map_app in *. apply Forall_app in Hf as [Hf Hc]. cbn [map] in *.
  exists (map (fun c => mkTlv (c_type c) (c_val c)) n). split; [apply comps_ok; auto|].
  inversion Hc; subst. split; [assumption|].
  destruct Ho as (_ & Ho & _). unfold tlv_len. unfold tlv_length in *. rewrite Hv in *.
  fold (wlen (map (fun c => mkTlv (c_type c) (c_val c)) n ++ [mkTlv (c_type c) (c_val c)])) in *.
  rewrite wlen_app, wlen_one in *. unfold tlv_len, tlv_length in *. cbn [t_val] in *. lia.
Qed.
Lemma name_app_intro n c l : mapM comp_tlv n = Ok l -> tlv_ok (mkTlv (c_type c) (c_val c)) ->
  wlen l + (4 + zlen (c_val c)) < 65536 ->
  exists t, name_tlv (n ++ [c]) = Ok t /\ tlv_len t = 4 + (wlen l + (4 + zlen (c_val c))).
Proof.
  intros Hl Hc L. pose proof Hl as Hl'. apply comps_ok in Hl' as [Hf El].
  assert (mapM comp_tlv (n ++ [c]) = Ok (l ++ [mkTlv (c_type c) (c_val c)])) as E.
  { apply comps_ok. rewrite map_app, Forall_app. subst l. cbn [map]. repeat split; auto. }
  assert (wlen (l ++ [mkTlv (c_type c) (c_val c)]) = wlen l + (4 + zlen (c_val c))) as W.
  { rewrite wlen_app, wlen_one. reflexivity. }
  exists (mkTlv T_NAME (wires (l ++ [mkTlv (c_type c) (c_val c)]))). split.
  - unfold name_tlv. rewrite E. cbn [bind]. rewrite concat_wires_eq. apply tlv_make_intro.
    split; [cbn [t_type]; unfold T_OBJECT, T_PAYLOAD, T_NAME; lia|]. split; [unfold tlv_length; cbn [t_val]; fold (wlen (l ++ [mkTlv (c_type c) (c_val c)])); lia|].
    apply bytes_ok_wires. rewrite Forall_app. split; [assumption|]. repeat constructor; apply Hc.
  - unfold tlv_len, tlv_length. cbn [t_val]. fold (wlen (l ++ [mkTlv (c_type c) (c_val c)])). lia.
Qed.

(* a name that fits with a large number fits with a smaller one *)
Lemma impl_name_len i a b nb : 0 <= a -> int_len a <= int_len b -> impl_name i (Some b) = Ok nb ->
  (exists l, opt_tlvs name_tlv nb l) ->
  exists na, impl_name i (Some a) = Ok na /\ (exists l, opt_tlvs name_tlv na l) /\
    name_len na = name_len nb - (if uses_name_id i then int_len b - int_len a else 0).
Proof.
  intros Ha0 Hab H Hl. unfold impl_name, uses_name_id in *. destruct (im_schema i) as [ls f|nm ls f|nm ty ls f].
  - apply Ok_inj in H. subst nb. exists None. split; [reflexivity|]. split; [exact Hl|]. cbn [name_len]. lia.
  - apply Ok_inj in H. subst nb. exists nm. split; [reflexivity|]. split; [exact Hl|]. lia.
  - destruct nm as [n|]; [|discriminate]. destruct ty as [ty|]; [|discriminate].
    apply bind_ok in H as (vb & Eb & H). apply bind_ok in H as (tc & Ec & H).
    apply bind_ok in H as (t & Et & H). apply Ok_inj in H. subst nb.
    destruct (number_to_array_intro a) as [va Ea]; [lia|]. rewrite Ea. cbn [bind].
    apply number_to_array_ok in Eb as (_ & Bb & _ & Lb). fold (int_len b) in Lb.
    apply number_to_array_ok in Ea as (_ & Ba & _ & La). fold (int_len a) in La.
    pose proof (int_len_pos a).
    pose proof Et as Et'. apply name_app_tlv in Et' as (l & El & Oc & Lt & Lw). cbn [c_type c_val] in *.
    assert (tlv_ok (mkTlv ty va)) as Oa.
    { destruct Oc as (T & L & _). unfold tlv_ok, tlv_length in *. cbn [t_type t_val] in *. repeat split; try lia. exact Ba. }
    unfold comp_tlv. cbn [c_type c_val]. rewrite (tlv_make_intro _ _ Oa). cbn [bind].
    destruct (name_app_intro n (mkComp ty KArray va) l El Oa) as (ta & Eta & Lta); [cbn [c_val]; lia|].
    rewrite Eta. cbn [bind]. eexists. split; [reflexivity|]. split; [cbn [opt_tlvs]; eauto|].
    cbn [name_len]. rewrite Eta, Et. cbn [c_val] in Lta. lia.
Qed.
Lemma impl_name_mono i a b nb : 0 <= a <= b -> impl_name i (Some b) = Ok nb ->
  (exists l, opt_tlvs name_tlv nb l) ->
  exists na, impl_name i (Some a) = Ok na /\ (exists l, opt_tlvs name_tlv na l) /\
    name_len na = name_len nb - (if uses_name_id i then int_len b - int_len a else 0).
Proof. intros Hab. apply impl_name_len; [lia|now apply int_len_mono]. Qed.

(* ---------------- the loop ---------------- *)

(* d cut into pieces of ps bytes, the last one shorter *)
Inductive splits (ps : Z) : bytes -> list bytes -> Prop :=
| sp_nil : splits ps [] []
| sp_cons d l : d <> [] -> splits ps (zskip ps d) l -> splits ps d (ztake ps d :: l).

Lemma splits_exists ps : 1 <= ps -> forall n d, (length d <= n)%nat ->
  exists l, splits ps d l /\ (length l <= length d)%nat.
Proof.
  intros Hp. induction n as [|n IH]; intros d L.
  - destruct d; [|cbn in L; lia]. exists []. split; [constructor|auto].
  - destruct d as [|x d]; [exists []; split; [constructor|auto]|].
    assert (length (zskip ps (x :: d)) <= length d)%nat as L'.
    { unfold zskip. rewrite skipn_length. cbn [length]. lia. }
    destruct (IH (zskip ps (x :: d))) as (l & Hl & Ll); [cbn in L; lia|].
    exists (ztake ps (x :: d) :: l). split; [constructor; [discriminate|exact Hl]|cbn [length]; lia].
Qed.

Lemma ztake_nil_iff ps (d : bytes) : 1 <= ps -> ztake ps d = [] <-> d = [].
Proof.
  intros. split; intros E; [|subst; unfold ztake; now rewrite firstn_nil].
  destruct d; [reflexivity|]. unfold ztake in E. destruct (Z.to_nat ps) eqn:Ez; [lia|discriminate].
Qed.

Section Loop.
Context (P : prims).
Variable o : opts P.
Variable i : impl.

(* the final chunk id of chunk number id *)
Definition final_id (id : Z) (last : bool) : option Z :=
  match im_schema i with
  | SSeg _ (Some ty) _ _ => if (ty =? T_CHUNKID) && last then Some id else None
  | _ => None
  end.

(* p is the data object number id with payload b, and m its metadata *)
Definition data_object (id : Z) (last : bool) (b : bytes) (p : packet) (m : cmeta) : Prop :=
  exists nm w h, impl_name i (Some id) = Ok nm /\
    p_body p = BCO (mkCO nm (Some PT_DATA) (Some b) (op_dexp o) (final_id id last)) /\
    p_alg p = None /\
    (p_vpl p = None /\ create_content_object (mkCO nm (Some PT_DATA) (Some b) (op_dexp o) (final_id id last)) = Ok p) /\
    packet_wire p = Ok w /\ zlen w = data_len nm (op_dexp o) b (final_id id last) /\
    zlen w <= op_max o /\ id <= MAX_CHUNK_ID /\ zlen w < 65536 /\
    packet_hash (pr_sha P) p = Ok h /\ m = mkCM id (zlen b) h.

(* packets and metadata of the first pieces of l *)
Fixpoint emits (id : Z) (l : list bytes) (pkts : list packet) (ms : list cmeta) : Prop :=
  match pkts, ms with
  | [], [] => True
  | p :: pkts', m :: ms' =>
      match l with
      | [] => False
      | b :: l' => data_object id (match l' with [] => true | _ => false end) b p m /\
                   emits (id + 1) l' pkts' ms'
      end
  | _, _ => False
  end.

(* why chunk number id could not be written *)
Definition chunk_fail (id : Z) (last : bool) (b : bytes) (e : exn) : Prop :=
  (MAX_CHUNK_ID < id /\ e = ValueError) \/
  (id <= MAX_CHUNK_ID /\
   (impl_name i (Some id) = Err e \/ uses_final_chunk_id i = Err e \/
    (exists nm, impl_name i (Some id) = Ok nm /\ data_packet P o nm b (final_id id last) = Err e) \/
    (exists nm p, impl_name i (Some id) = Ok nm /\ data_packet P o nm b (final_id id last) = Ok p /\
       packet_hash (pr_sha P) p = Err e))).
Fixpoint fails (id : Z) (l : list bytes) (k : nat) (e : exn) : Prop :=
  match l with
  | [] => False
  | b :: l' => match k with
               | O => chunk_fail id (match l' with [] => true | _ => false end) b e
               | S k' => fails (id + 1) l' k' e
               end
  end.

Lemma data_packet_ok nm b f p : data_packet P o nm b f = Ok p ->
  exists w, p_body p = BCO (mkCO nm (Some PT_DATA) (Some b) (op_dexp o) f) /\
    p_alg p = None /\ (p_vpl p = None /\ create_content_object (mkCO nm (Some PT_DATA) (Some b) (op_dexp o) f) = Ok p) /\
    packet_wire p = Ok w /\ zlen w = data_len nm (op_dexp o) b f /\ zlen w <= op_max o /\ zlen w < 65536.
Proof.
  intros H. unfold data_packet in H. apply bind_ok in H as (c & Ec & H). apply bind_ok in H as (q & Eq & H).
  apply bind_ok in H as (l & El & H). apply bind_ok in H as (u & Eg & H). apply Ok_inj in H. subst q.
  destruct (data_len_ok nm b (op_dexp o) f p) as (Hb & Ha & Hv & Hl & Hs & _).
  { rewrite Ec. cbn [bind]. exact Eq. }
  unfold packet_len in *. rewrite El in Hl. apply Ok_inj in Hl. subst l.
  apply bind_ok in El as (w & Ew & El). apply Ok_inj in El. apply guard_ok in Eg.
  assert (create_content_object (mkCO nm (Some PT_DATA) (Some b) (op_dexp o) f) = Ok p) as Hc.
  { unfold create_data in Ec. apply bind_ok in Ec as (? & _ & Ec). apply Ok_inj in Ec. subst c. exact Eq. }
  exists w. repeat split; auto; lia.
Qed.

Lemma loop_spec ps d l : 1 <= ps -> splits ps d l ->
  forall fuel id total acc out, (length l <= fuel)%nat ->
  run (chunk_loop P fuel o i ps (ztake ps d) (zskip ps d) id total acc) out
    (fun r out' => exists pkts ms, out' = out ++ pkts /\ emits id l pkts ms /\
        length pkts = length l /\
        r = (acc ++ ms, total + zlen d, id + zlen l))
    (fun e out' => exists pkts ms, out' = out ++ pkts /\ emits id l pkts ms /\
        fails id l (length pkts) e).
Proof.
  intros Hp H. induction H as [|d l Hd Hs IH]; intros fuel id total acc out L.
  - unfold ztake. rewrite firstn_nil. destruct fuel; cbn [chunk_loop]; apply run_ret;
      exists [], []; rewrite !app_nil_r, !zlen_nil, !Z.add_0_r; cbn; auto.
  - destruct (ztake ps d) as [|x cur] eqn:Et; [apply ztake_nil_iff in Et; [contradiction|lia]|].
    destruct fuel as [|f]; [cbn in L; lia|]. cbn [chunk_loop].
    assert ((zlen (ztake ps (zskip ps d)) =? 0) = match l with [] => true | _ => false end) as Hlast.
    { remember (zskip ps d) as d' eqn:Ed. destruct Hs as [|d' l' Hd' Hs'].
      - unfold ztake. rewrite firstn_nil. reflexivity.
      - destruct (ztake ps d') as [|y l2] eqn:E'; [apply ztake_nil_iff in E'; [contradiction|lia]|].
        rewrite zlen_cons. pose proof (zlen_nonneg l2). lia. }
    apply run_bind, run_lift.
    2:{ intros e E. exists [], []. rewrite app_nil_r. cbn [emits fails length]. repeat split.
        left. unfold guard in E. destruct (id <=? MAX_CHUNK_ID) eqn:Eid; [discriminate|]. split; [lia|congruence]. }
    intros u Eg. apply guard_ok in Eg.
    apply run_bind, run_lift.
    2:{ intros e E. exists [], []. rewrite app_nil_r. cbn [emits fails length]. repeat split.
        right. split; [lia|]. left. exact E. }
    intros nm En.
    apply run_bind, run_lift.
    2:{ intros e E. exists [], []. rewrite app_nil_r. cbn [emits fails length]. repeat split.
        right. split; [lia|]. right. left. exact E. }
    intros uf Eu. rewrite Hlast.
    assert ((if uf && (match l with [] => true | _ => false end) then Some id else None)
            = final_id id (match l with [] => true | _ => false end)) as Ef.
    { unfold final_id, uses_final_chunk_id in *. destruct (im_schema i) as [| |nm' [ty|] ls' f']; try (apply Ok_inj in Eu; subst uf; reflexivity).
      discriminate. }
    rewrite Ef.
    apply run_bind, run_lift.
    2:{ intros e E. exists [], []. rewrite app_nil_r. cbn [emits fails length]. repeat split.
        right. split; [lia|]. right. right. left. eauto. }
    intros p Ep. apply run_bind, run_lift.
    2:{ intros e E. exists [], []. rewrite app_nil_r. cbn [emits fails length]. repeat split.
        right. split; [lia|]. right. right. right. eauto 6. }
    intros h Eh. apply run_bind, run_mod.
    assert (data_object id (match l with [] => true | _ => false end) (x :: cur) p (mkCM id (zlen (x :: cur)) h)) as Hobj.
    { apply data_packet_ok in Ep as (w & A1 & A2 & (A3 & A3') & A4 & A5 & A6 & A7). exists nm, w, h. repeat split; auto; lia. }
    eapply run_weaken; [apply (IH f (id + 1)); cbn in L; lia| |].
    + intros r s' (pkts & ms & -> & He & Hl & ->). exists (p :: pkts), (mkCM id (zlen (x :: cur)) h :: ms).
      rewrite <- app_assoc. split; [reflexivity|]. split; [cbn [emits]; auto|]. split; [cbn [length]; lia|].
      rewrite <- app_assoc. cbn [app].
      assert (zlen d = zlen (x :: cur) + zlen (zskip ps d)) as ->.
      { rewrite <- Et, <- zlen_app, ztake_zskip. reflexivity. }
      rewrite (zlen_cons _ l). f_equal; [f_equal; lia|lia].
    + intros e s' (pkts & ms & -> & He & Hf). exists (p :: pkts), (mkCM id (zlen (x :: cur)) h :: ms).
      rewrite <- app_assoc. split; [reflexivity|]. split; [cbn [emits]; auto|]. exact Hf.
Qed.

Lemma payload_size_ok ps : payload_size P o i = Ok ps ->
  exists nm, impl_name i (Some MAX_CHUNK_ID) = Ok nm /\ (exists l, opt_tlvs name_tlv nm l) /\
    (exists l, opt_tlvs (ts_tlv T_EXPIRY) (op_dexp o) l) /\ 1 <= ps /\
    op_max o = ps + data_len nm (op_dexp o) [] (if uses_name_id i then Some MAX_CHUNK_ID else None).
Proof.
  intros H. unfold payload_size in H. apply bind_ok in H as (nm & En & H).
  apply bind_ok in H as (c & Ec & H). apply bind_ok in H as (p & Ep & H).
  apply bind_ok in H as (l & El & H). apply bind_ok in H as (u & Eg & H). apply Ok_inj in H.
  destruct (data_len_ok nm [] (op_dexp o) (if uses_name_id i then Some MAX_CHUNK_ID else None) p)
    as (_ & _ & _ & Hl & _ & H1 & H2 & _).
  { apply bind_ok. exists c. split; [exact Ec|exact Ep]. }
  rewrite El in Hl. apply Ok_inj in Hl. subst l. apply guard_ok in Eg.
  exists nm. repeat split; auto; lia.
Qed.

(* room for chunk number id *)
Lemma data_fits ps id b last : payload_size P o i = Ok ps -> 0 <= id <= MAX_CHUNK_ID ->
  bytes_ok b -> zlen b <= ps -> op_max o < 65536 ->
  exists nm p, impl_name i (Some id) = Ok nm /\ data_packet P o nm b (final_id id last) = Ok p /\
    (exists u, uses_final_chunk_id i = Ok u).
Proof.
  intros Hps Hid Hb Lb Hm. apply payload_size_ok in Hps as (nx & Ex & Wx & We & Hp & Hmax).
  destruct (impl_name_mono i id MAX_CHUNK_ID nx Hid Ex Wx) as (nm & En & Wn & Ln).
  exists nm. pose proof (int_len_mono id MAX_CHUNK_ID Hid). pose proof (int_len_pos id).
  assert (data_len nm (op_dexp o) b (final_id id last) <= op_max o) as Lf.
  { rewrite Hmax. unfold data_len. rewrite zlen_nil, Ln.
    unfold final_id, uses_name_id in *. destruct (im_schema i) as [| |n' [ty|] ls' f']; cbn [fcid_len];
      try lia. destruct ((ty =? T_CHUNKID) && last); cbn [fcid_len]; lia. }
  edestruct (data_len_intro nm b (op_dexp o) (final_id id last)) as (p & Ep); auto; [|lia|].
  { unfold final_id. destruct (im_schema i) as [| |n' [ty|] ls' f']; try (exists []; reflexivity).
    destruct ((ty =? T_CHUNKID) && last); [|exists []; reflexivity]. cbn [opt_tlvs].
    destruct (int_tlv_intro T_FINAL_CHUNK_ID id) as (t & Et); [unfold T_FINAL_CHUNK_ID; lia|lia|]. exists [t]. eauto. }
  exists p. split; [exact En|]. split.
  - unfold data_packet. apply bind_ok in Ep as (c & Ec & Ep). rewrite Ec. cbn [bind]. rewrite Ep. cbn [bind].
    destruct (data_len_ok nm b (op_dexp o) (final_id id last) p) as (_ & _ & _ & L & _).
    { rewrite Ec. exact Ep. }
    rewrite L. cbn [bind]. replace (_ <=? op_max o) with true by lia. reflexivity.
  - unfold impl_name in Ex. unfold uses_final_chunk_id.
    destruct (im_schema i) as [| |[n'|] [ty|] ls' f']; try discriminate; eauto.
Qed.
End Loop.
