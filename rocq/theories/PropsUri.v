(* C63: names from URIs. *)
From Coq Require Import ZArith List Bool Lia ZifyBool.
From Verif Require Import Py Tlv Core TlvProofs CoreProofs Flic FlicProofs Store StoreProofs Uri.
Import ListNotations.
Open Scope Z_scope.
Opaque tlv_make tlv_wire tlv_deserialize.

(* ---------------- UTF-8 ---------------- *)

Lemma dec_enc1 c r : scalar c = true -> utf8_decode (enc1 c ++ r) = (t <- utf8_decode r ;; Ok (c :: t)).
Proof.
  intros S. unfold enc1, scalar in *.
  destruct (c <? 128) eqn:E1; [|destruct (c <? 2048) eqn:E2; [|destruct (c <? 65536) eqn:E3]];
    cbn [app utf8_decode].
  - replace ((0 <=? c) && (c <? 128)) with true by lia. reflexivity.
  - assert (2 <= c / 64 < 32 /\ 0 <= c mod 64 < 64 /\ c = 64 * (c / 64) + c mod 64) as (A & B & C)
      by (Z.to_euclidean_division_equations; lia).
    set (a := c / 64) in *. set (b := c mod 64) in *. clearbody a b.
    replace ((0 <=? 192 + a) && (192 + a <? 128)) with false by lia.
    unfold cont. replace (negb _) with false by lia.
    replace ((194 <=? 192 + a) && (192 + a <? 224)) with true by lia.
    replace ((192 + a - 192) * 64 + (128 + b - 128)) with c by lia. reflexivity.
  - assert (0 <= c / 4096 < 16 /\ 0 <= (c / 64) mod 64 < 64 /\ 0 <= c mod 64 < 64 /\
            c = 4096 * (c / 4096) + 64 * ((c / 64) mod 64) + c mod 64) as (A & B & C & D)
      by (Z.to_euclidean_division_equations; lia).
    set (a := c / 4096) in *. set (b := (c / 64) mod 64) in *. set (d := c mod 64) in *. clearbody a b d.
    replace ((0 <=? 224 + a) && (224 + a <? 128)) with false by lia.
    unfold cont. replace (negb ((128 <=? 128 + b) && _)) with false by lia.
    replace ((194 <=? 224 + a) && (224 + a <? 224)) with false by lia.
    replace (negb _) with false by lia.
    replace ((224 <=? 224 + a) && (224 + a <? 240)) with true by lia.
    replace ((224 + a - 224) * 4096 + (128 + b - 128) * 64 + (128 + d - 128)) with c by lia. cbv zeta.
    unfold scalar. replace ((2048 <=? c) && _) with true by lia. reflexivity.
  - assert (0 <= c / 262144 < 5 /\ 0 <= (c / 4096) mod 64 < 64 /\ 0 <= (c / 64) mod 64 < 64 /\ 0 <= c mod 64 < 64 /\
            c = 262144 * (c / 262144) + 4096 * ((c / 4096) mod 64) + 64 * ((c / 64) mod 64) + c mod 64) as (A & B & C & D & E)
      by (Z.to_euclidean_division_equations; lia).
    set (a := c / 262144) in *. set (b := (c / 4096) mod 64) in *. set (d := (c / 64) mod 64) in *.
    set (e := c mod 64) in *. clearbody a b d e.
    replace ((0 <=? 240 + a) && (240 + a <? 128)) with false by lia.
    unfold cont. replace (negb ((128 <=? 128 + b) && _)) with false by lia.
    replace ((194 <=? 240 + a) && (240 + a <? 224)) with false by lia.
    replace (negb ((128 <=? 128 + d) && _)) with false by lia.
    replace ((224 <=? 240 + a) && (240 + a <? 240)) with false by lia.
    replace (negb _) with false by lia.
    replace ((240 <=? 240 + a) && (240 + a <? 245)) with true by lia.
    replace ((240 + a - 240) * 262144 + (128 + b - 128) * 4096 + (128 + d - 128) * 64 + (128 + e - 128)) with c by lia.
    cbv zeta. unfold scalar. replace ((65536 <=? c) && _) with true by lia. reflexivity.
Qed.

(* Encoding and strict decoding are inverse to each other. *)
Theorem C63_utf8_encode t b : utf8_encode t = Ok b -> utf8_decode b = Ok t.
Proof.
  unfold utf8_encode. destruct (forallb scalar t) eqn:S; [|discriminate]. intros [= <-].
  induction t as [|c t IH]; [reflexivity|]. cbn [forallb] in S. apply andb_prop in S as [S1 S2].
  cbn [flat_map]. rewrite dec_enc1 by assumption. rewrite (IH S2). reflexivity.
Qed.

Lemma utf8_decode_inv n : forall b t, (length b <= n)%nat -> utf8_decode b = Ok t ->
  forallb scalar t = true /\ flat_map enc1 t = b.
Proof.
  induction n as [|n IH]; intros b t L H.
  { destruct b; [|cbn in L; lia]. injection H as <-. auto. }
  destruct b as [|x b]; [injection H as <-; auto|]. cbn [utf8_decode] in H. cbn [length] in L.
  destruct ((0 <=? x) && (x <? 128)) eqn:E1.
  { inv_bind H. apply Ok_inj in H. subst t. apply IH in E as [A B]; [|lia]. cbn [forallb flat_map].
    rewrite A, B. unfold scalar, enc1. replace (x <? 128) with true by lia. split; [lia|reflexivity]. }
  destruct b as [|y b]; [discriminate|]. cbn [length] in L. unfold cont in H.
  destruct (negb _) eqn:C1 in H; [discriminate|].
  destruct ((194 <=? x) && (x <? 224)) eqn:E2.
  { inv_bind H. apply Ok_inj in H. subst t. apply IH in E as [A B]; [|lia]. cbn [forallb flat_map].
    rewrite A, B. unfold scalar, enc1. set (c := (x - 192) * 64 + (y - 128)).
    replace (c <? 128) with false by lia. replace (c <? 2048) with true by lia.
    assert (c / 64 = x - 192) as -> by (unfold c; Z.to_euclidean_division_equations; lia).
    assert (c mod 64 = y - 128) as -> by (unfold c; Z.to_euclidean_division_equations; lia).
    split; [lia|]. cbn [app]. f_equal; [lia|f_equal; lia]. }
  destruct b as [|z b]; [discriminate|]. cbn [length] in L. destruct (negb _) eqn:C2 in H; [discriminate|].
  destruct ((224 <=? x) && (x <? 240)) eqn:E3.
  { cbv zeta in H. set (c := (x - 224) * 4096 + (y - 128) * 64 + (z - 128)) in *.
    destruct ((2048 <=? c) && scalar c) eqn:S; [|discriminate]. apply andb_prop in S as [S1 S2].
    inv_bind H. apply Ok_inj in H. subst t. apply IH in E as [A B]; [|lia]. cbn [forallb flat_map].
    rewrite A, B, S2. unfold enc1.
    replace (c <? 128) with false by lia. replace (c <? 2048) with false by lia.
    replace (c <? 65536) with true by lia.
    assert (c / 4096 = x - 224) as -> by (unfold c; Z.to_euclidean_division_equations; lia).
    assert ((c / 64) mod 64 = y - 128) as -> by (unfold c; Z.to_euclidean_division_equations; lia).
    assert (c mod 64 = z - 128) as -> by (unfold c; Z.to_euclidean_division_equations; lia).
    split; [reflexivity|]. cbn [app]. f_equal; [lia|f_equal; [lia|f_equal; lia]]. }
  destruct b as [|w b]; [discriminate|]. cbn [length] in L. destruct (negb _) eqn:C3 in H; [discriminate|].
  destruct ((240 <=? x) && (x <? 245)) eqn:E4; [|discriminate].
  cbv zeta in H. set (c := (x - 240) * 262144 + (y - 128) * 4096 + (z - 128) * 64 + (w - 128)) in *.
  destruct ((65536 <=? c) && scalar c) eqn:S; [|discriminate]. apply andb_prop in S as [S1 S2].
  inv_bind H. apply Ok_inj in H. subst t. apply IH in E as [A B]; [|lia]. cbn [forallb flat_map].
  rewrite A, B, S2. unfold enc1.
  replace (c <? 128) with false by lia. replace (c <? 2048) with false by lia.
  replace (c <? 65536) with false by lia.
  assert (c / 262144 = x - 240) as -> by (unfold c; Z.to_euclidean_division_equations; lia).
  assert ((c / 4096) mod 64 = y - 128) as -> by (unfold c; Z.to_euclidean_division_equations; lia).
  assert ((c / 64) mod 64 = z - 128) as -> by (unfold c; Z.to_euclidean_division_equations; lia).
  assert (c mod 64 = w - 128) as -> by (unfold c; Z.to_euclidean_division_equations; lia).
  split; [reflexivity|]. cbn [app]. f_equal; [lia|f_equal; [lia|f_equal; [lia|f_equal; lia]]].
Qed.
Theorem C63_utf8_decode b t : utf8_decode b = Ok t -> utf8_encode t = Ok b.
Proof.
  intros H. apply (utf8_decode_inv (length b)) in H as [A B]; [|lia].
  unfold utf8_encode. now rewrite A, B.
Qed.
Print Assumptions C63_utf8_encode.
Print Assumptions C63_utf8_decode.
(* Texts that can be encoded: code points that are not surrogates. *)
Theorem C63_encodable t : (exists b, utf8_encode t = Ok b) <-> Forall (fun c => 0 <= c <= 0x10FFFF /\ ~ 0xD800 <= c <= 0xDFFF) t.
Proof.
  unfold utf8_encode. assert (forallb scalar t = true <-> Forall (fun c => 0 <= c <= 0x10FFFF /\ ~ 0xD800 <= c <= 0xDFFF) t) as E.
  { rewrite forallb_forall, Forall_forall. split; intros H c I; specialize (H c I); unfold scalar in *; lia. }
  rewrite <- E. destruct (forallb scalar t); split; eauto; [intros (b & [=])|discriminate].
Qed.
Print Assumptions C63_encodable.
(* "aé€😀" *)
Example C63_utf8_ex : utf8_encode [97; 233; 8364; 128512] = Ok [97; 195; 169; 226; 130; 172; 240; 159; 152; 128] /\
  utf8_encode [55296] = Err ValueError /\ utf8_decode [192; 128] = Err ValueError.
Proof. vm_compute. auto. Qed.

(* ---------------- C63: from_uri ---------------- *)

(* a segment that can be written in a URI: not empty, not ".", no surrogates
   and none of "/", "?", "#", tab, newline, return *)
Definition good_char (c : Z) : Prop := scalar c = true /\ ~ In c [47; 63; 35; 9; 10; 13].
Definition good_seg (s : text) : Prop := s <> [] /\ s <> [46] /\ Forall good_char s.
(* /s1/s2/... *)
Definition slashed (segs : list text) : text := flat_map (fun s => 47 :: s) segs.
(* ccnx: *)
Definition ccnx_colon : text := [99; 99; 110; 120; 58].
Definition seg (b : bytes) : comp := mkComp 1 KBytes b.
(* bytes of the components on the wire *)
Definition name_size (bs : list bytes) : Z := fold_right (fun b z => 4 + zlen b + z) 0 bs.

Lemma cut_app stop a b : forallb (fun c => negb (stop c)) a = true ->
  match b with [] => True | c :: _ => stop c = true end -> cut stop (a ++ b) = (a, b).
Proof.
  intros A B. induction a as [|c a IH]; cbn [app].
  - destruct b as [|c b]; [reflexivity|]. cbn [cut]. now rewrite B.
  - cbn [forallb] in A. apply andb_prop in A as [A1 A2]. cbn [cut].
    destruct (stop c); [discriminate|]. now rewrite (IH A2).
Qed.
Lemma cut_none stop a : forallb (fun c => negb (stop c)) a = true -> cut stop a = (a, []).
Proof. intros A. rewrite <- (app_nil_r a) at 1. now apply cut_app. Qed.

(* the path of a URI from what follows "ccnx:" *)
Definition clean (t : text) : text := filter (fun c => negb ((c =? 9) || (c =? 10) || (c =? 13))) t.
Definition rest_path (r : text) : text :=
  fst (cut (fun c => c =? 63) (fst (cut (fun c => c =? 35) (skip_authority r)))).
Lemma url_split_ccnx r : url_split (ccnx_colon ++ r) = (ccnx, rest_path (clean r)).
Proof. reflexivity. Qed.

Lemma good_clean t : Forall good_char t -> clean t = t.
Proof.
  intros F. induction F as [|c t [_ G] F IH]; [reflexivity|]. unfold clean in *. cbn [filter].
  rewrite IH. assert ((c =? 9) || (c =? 10) || (c =? 13) = false) as ->; [|reflexivity].
  destruct (c =? 9) eqn:E1; [exfalso; apply G; cbn; lia|].
  destruct (c =? 10) eqn:E2; [exfalso; apply G; cbn; lia|].
  destruct (c =? 13) eqn:E3; [exfalso; apply G; cbn; lia|]. reflexivity.
Qed.
Lemma clean_app a b : clean (a ++ b) = clean a ++ clean b.
Proof. apply filter_app. Qed.
Lemma slashed_chars segs : Forall good_seg segs -> Forall (fun c => c = 47 \/ good_char c) (slashed segs).
Proof.
  intros F. induction F as [|s l (_ & _ & G) F IH]; [constructor|]. cbn [slashed flat_map app].
  constructor; [now left|]. apply Forall_app. split; [|exact IH].
  eapply Forall_impl; [|exact G]. auto.
Qed.
Lemma slashed_clean segs : Forall good_seg segs -> clean (slashed segs) = slashed segs.
Proof.
  intros F. induction F as [|s l (_ & _ & G) F IH]; [reflexivity|].
  unfold slashed in *. cbn [flat_map]. change (47 :: s ++ ?x) with ([47] ++ s ++ x).
  change ((47 :: s) ++ ?x) with ([47] ++ s ++ x). rewrite !clean_app, IH, (good_clean s G). reflexivity.
Qed.
Lemma no_stop (stop : Z -> bool) t : (forall c, c = 47 \/ good_char c -> stop c = false) ->
  Forall (fun c => c = 47 \/ good_char c) t -> forallb (fun c => negb (stop c)) t = true.
Proof. intros H F. induction F as [|c t G F IH]; [reflexivity|]. cbn [forallb]. now rewrite (H c G), IH. Qed.
Lemma no_q c : c = 47 \/ good_char c -> (c =? 63) = false.
Proof. intros [->|[_ G]]; [reflexivity|]. destruct (c =? 63) eqn:E; [exfalso; apply G; cbn; lia|reflexivity]. Qed.
Lemma no_h c : c = 47 \/ good_char c -> (c =? 35) = false.
Proof. intros [->|[_ G]]; [reflexivity|]. destruct (c =? 35) eqn:E; [exfalso; apply G; cbn; lia|reflexivity]. Qed.
Lemma no_s c : good_char c -> (c =? 47) = false.
Proof. intros [_ G]. destruct (c =? 47) eqn:E; [exfalso; apply G; cbn; lia|reflexivity]. Qed.

(* query and fragment are cut off *)
Lemma query_cut p q : Forall (fun c => c = 47 \/ good_char c) p ->
  match q with [] => True | c :: _ => c = 63 \/ c = 35 end ->
  fst (cut (fun c => c =? 63) (fst (cut (fun c => c =? 35) (p ++ q)))) = p.
Proof.
  intros G Q.
  pose proof (no_stop (fun c => c =? 63) p no_q G) as Fq. pose proof (no_stop (fun c => c =? 35) p no_h G) as Fh.
  destruct q as [|c q].
  - rewrite app_nil_r. rewrite (cut_none _ _ Fh). cbn [fst]. now rewrite (cut_none _ _ Fq).
  - destruct Q as [->| ->].
    + assert (exists q1 q2, cut (fun c => c =? 35) (p ++ 63 :: q) = (p ++ 63 :: q1, q2)) as (q1 & q2 & E).
      { clear G Fq. induction p as [|c p IH]; cbn [app].
        - cbn [cut]. destruct (cut _ q) as [q1 q2] eqn:E. exists q1, q2. reflexivity.
        - cbn [forallb] in Fh. apply andb_prop in Fh as [A B]. destruct (IH B) as (q1 & q2 & E).
          exists q1, q2. cbn [cut]. destruct (c =? 35); [discriminate|]. now rewrite E. }
      rewrite E. cbn [fst]. now rewrite (cut_app _ _ _ Fq).
    + rewrite (cut_app _ _ _ Fh) by reflexivity. cbn [fst]. now rewrite (cut_none _ _ Fq).
Qed.
Lemma slashed_rest segs q : Forall good_seg segs -> match q with [] => True | c :: _ => c = 63 \/ c = 35 end ->
  rest_path (slashed segs ++ q) = slashed segs.
Proof.
  intros F Q. unfold rest_path. cbv zeta.
  assert (E : skip_authority (slashed segs ++ q) = slashed segs ++ q).
  { destruct segs as [|s l].
    - cbn [slashed flat_map app]. destruct q as [|c q]; [reflexivity|]. destruct Q as [->| ->]; reflexivity.
    - inversion F as [|? ? (N & _ & G) _]; subst. destruct s as [|c s]; [contradiction|].
      inversion G as [|? ? Gc _]; subst. pose proof (no_s c Gc) as Nc. cbn [slashed flat_map app].
      destruct c as [|c|c]; try reflexivity. do 6 (destruct c as [c|c|]; try reflexivity). discriminate. }
  rewrite E. apply query_cut; [now apply slashed_chars|assumption].
Qed.

Lemma split_app s t : Forall (fun c => (c =? 47) = false) s ->
  split_slash (s ++ t) = match split_slash t with x :: l => (s ++ x) :: l | [] => [s] end.
Proof.
  intros F. assert (N : forall u, split_slash u <> []).
  { intros [|c u]; cbn; [discriminate|]. destruct (c =? 47); [discriminate|]. now destruct (split_slash u). }
  induction F as [|c s E F IH]; cbn [app].
  - specialize (N t). now destruct (split_slash t).
  - cbn [split_slash]. rewrite E, IH. specialize (N t). now destruct (split_slash t).
Qed.
Lemma split_slashed segs : Forall good_seg segs -> split_slash (slashed segs) = [] :: segs.
Proof.
  intros F. induction F as [|s l (_ & _ & G) F IH]; [reflexivity|]. cbn [slashed flat_map app split_slash].
  change (47 =? 47) with true. cbv iota. f_equal. rewrite split_app.
  - change (flat_map _ l) with (slashed l). rewrite IH. now rewrite app_nil_r.
  - eapply Forall_impl; [|exact G]. apply no_s.
Qed.
Lemma keep_good segs : Forall good_seg segs ->
  filter (fun s => negb (beqb s [] || beqb s [46])) segs = segs.
Proof.
  intros F. induction F as [|s l (N & D & _) F IH]; [reflexivity|]. cbn [filter].
  assert (beqb s [] || beqb s [46] = false) as ->; [|now rewrite IH].
  destruct (beqb s []) eqn:E1; [apply beqb_spec in E1; contradiction|].
  destruct (beqb s [46]) eqn:E2; [apply beqb_spec in E2; contradiction|]. reflexivity.
Qed.
Lemma path_parts_slashed segs : Forall good_seg segs -> tl (path_parts (slashed segs)) = segs.
Proof.
  intros F. pose proof (split_slashed segs F) as S. pose proof (keep_good segs F) as K.
  assert (K' : filter (fun s => negb (beqb s [] || beqb s [46])) ([] :: segs) = segs) by exact K.
  unfold path_parts. rewrite S. cbv zeta. rewrite K'.
  destruct segs as [|s l]; [reflexivity|]. inversion F as [|? ? (N & _ & G) _]; subst.
  destruct s as [|c s]; [contradiction|]. inversion G as [|? ? Gc _]; subst. pose proof (no_s c Gc) as Nc.
  cbn [slashed flat_map app].
  destruct c as [|c|c]; try reflexivity. do 6 (destruct c as [c|c|]; try reflexivity). discriminate.
Qed.

Lemma enc1_bytes c : scalar c = true -> bytes_ok (enc1 c).
Proof.
  intros S. unfold scalar, enc1 in *. unfold bytes_ok.
  destruct (c <? 128) eqn:E1; [|destruct (c <? 2048) eqn:E2; [|destruct (c <? 65536) eqn:E3]];
    repeat constructor; Z.to_euclidean_division_equations; lia.
Qed.
Lemma encode_bytes s b : utf8_encode s = Ok b -> bytes_ok b.
Proof.
  unfold utf8_encode. destruct (forallb scalar s) eqn:S; [|discriminate]. intros [= <-].
  induction s as [|c s IH]; [constructor|]. cbn [forallb flat_map] in *. apply andb_prop in S as [S1 S2].
  apply Forall_app. split; [now apply enc1_bytes|exact (IH S2)].
Qed.
Lemma good_encodes segs : Forall good_seg segs -> exists bs, Forall2 (fun s b => utf8_encode s = Ok b) segs bs.
Proof.
  intros F. induction F as [|s l (_ & _ & G) F (bs & IH)]; [exists []; constructor|].
  exists (flat_map enc1 s :: bs). constructor; [|assumption]. unfold utf8_encode.
  assert (forallb scalar s = true) as ->; [|reflexivity]. apply forallb_forall. intros c Hc.
  rewrite Forall_forall in G. apply G, Hc.
Qed.

Lemma seg_tlv b : bytes_ok b -> comp_tlv (seg b) = if zlen b <? 65536 then Ok (mkTlv 1 b) else Err OverflowError.
Proof.
  intros B. unfold comp_tlv, seg. cbn [c_type c_val]. destruct (zlen b <? 65536) eqn:E.
  - apply tlv_make_intro. split; [cbn; lia|]. split; [|exact B]. unfold tlv_length. cbn [t_val]. lia.
  - destruct (tlv_make 1 b) as [t|e] eqn:M; [|apply tlv_make_err in M as [_ ->]; reflexivity].
    apply tlv_make_ok in M as [(_ & L & _) _]. unfold tlv_length in L. cbn [t_val] in L. lia.
Qed.
Lemma name_size_wires bs : zlen (wires (map (mkTlv 1) bs)) = name_size bs.
Proof.
  induction bs as [|b bs IH]; [reflexivity|]. cbn [map name_size fold_right].
  change (wires (mkTlv 1 b :: map (mkTlv 1) bs)) with (tlv_wire (mkTlv 1 b) ++ wires (map (mkTlv 1) bs)).
  rewrite zlen_app, IH, zlen_tlv_wire. unfold tlv_len, tlv_length. cbn [t_val]. fold (name_size bs). lia.
Qed.
Lemma name_size_ge b bs : In b bs -> zlen b < name_size bs.
Proof.
  assert (P : forall l, 0 <= name_size l).
  { induction l as [|x l IH]; [cbn; lia|]. cbn [name_size fold_right]. fold (name_size l).
    pose proof (zlen_nonneg x). lia. }
  induction bs as [|x l IH]; [intros []|]. cbn [name_size fold_right]. fold (name_size l).
  pose proof (zlen_nonneg x). specialize (P l). intros [->|I]; [lia|]. specialize (IH I). lia.
Qed.
Lemma seg_name_tlv bs : Forall bytes_ok bs ->
  (if name_size bs <? 65536 then exists t, name_tlv (map seg bs) = Ok t else name_tlv (map seg bs) = Err OverflowError).
Proof.
  intros F. destruct (name_size bs <? 65536) eqn:E.
  - exists (mkTlv T_NAME (wires (map (mkTlv 1) bs))). unfold name_tlv.
    assert (Forall (fun b => zlen b < 65536) bs) as Fl.
    { apply Forall_forall. intros b I. apply name_size_ge in I. lia. }
    assert (M : mapM comp_tlv (map seg bs) = Ok (map (mkTlv 1) bs)).
    { clear E. induction F as [|b l B F IH]; [reflexivity|]. inversion Fl; subst. cbn [map mapM].
      rewrite seg_tlv by assumption. replace (zlen b <? 65536) with true by lia. cbn [bind].
      rewrite IH by assumption. reflexivity. }
    rewrite M. cbn [bind]. change (concat_wires ?x) with (wires x).
    apply tlv_make_intro. split; [cbn; unfold T_NAME; lia|]. split; [unfold tlv_length; cbn [t_val]; rewrite name_size_wires; lia|].
    cbn [t_val]. apply bytes_ok_wires. apply Forall_forall. intros t I. apply in_map_iff in I as (b & <- & I).
    rewrite Forall_forall in F, Fl. specialize (F b I). specialize (Fl b I). cbn beta in Fl.
    split; [cbn; lia|]. split; [unfold tlv_length; cbn [t_val]; lia|exact F].
  - destruct (name_tlv (map seg bs)) as [t|e] eqn:N.
    + exfalso. apply name_tlv_ok in N as ((_ & L & _) & _ & l & M & V).
      apply comps_ok in M as [_ ->]. rewrite map_map in V. unfold tlv_length in L. rewrite V in L.
      unfold seg in L. cbn [c_type c_val] in L. rewrite name_size_wires in L. lia.
    + apply name_tlv_errs in N. destruct N as [<-|[]]. reflexivity.
Qed.
Lemma uri_segments segs bs : Forall2 (fun s b => utf8_encode s = Ok b) segs bs ->
  (n <- mapM uri_segment segs ;; _ <- name_tlv n ;; Ok (Some n)) =
  if name_size bs <? 65536 then Ok (Some (map seg bs)) else Err OverflowError.
Proof.
  intros F. assert (B : Forall bytes_ok bs).
  { induction F; constructor; auto. eapply encode_bytes; eassumption. }
  pose proof (seg_name_tlv bs B) as N.
  set (short := fun b : bytes => zlen b <? 65536).
  assert (M : if forallb short bs then mapM uri_segment segs = Ok (map seg bs)
              else mapM uri_segment segs = Err OverflowError).
  { clear N. induction F as [|s b segs bs E F IH]; [reflexivity|]. inversion B; subst.
    cbn [forallb mapM map]. unfold uri_segment at 1 3. rewrite E. cbn [bind]. fold (seg b).
    rewrite seg_tlv by assumption. fold (short b). destruct (short b); [|reflexivity]. cbn [bind andb].
    specialize (IH H2). destruct (forallb short bs); rewrite IH; reflexivity. }
  destruct (forallb short bs) eqn:A; rewrite M; cbn [bind].
  - destruct (name_size bs <? 65536); [destruct N as [t ->]|rewrite N]; reflexivity.
  - destruct (name_size bs <? 65536) eqn:E; [|reflexivity]. exfalso.
    assert (forallb short bs = true); [|congruence].
    apply forallb_forall. intros b I. apply name_size_ge in I. unfold short. lia.
Qed.

(* C63.  The URI ccnx:/s1/s2/... gives the name with the segments s1, s2, ...
   in UTF-8, or OverflowError if it is too long for a TLV. *)
Theorem C63_from_uri segs : Forall good_seg segs ->
  exists bs, Forall2 (fun s b => utf8_encode s = Ok b) segs bs /\
    from_uri (Some (ccnx_colon ++ slashed segs)) =
      if name_size bs <? 65536 then Ok (Some (map seg bs)) else Err OverflowError.
Proof.
  intros F. destruct (good_encodes segs F) as (bs & E). exists bs. split; [assumption|].
  unfold from_uri. rewrite url_split_ccnx, (slashed_clean _ F).
  pose proof (slashed_rest segs [] F I) as R. rewrite app_nil_r in R. rewrite R. cbv beta iota.
  change (beqb ccnx ccnx) with true. cbn [guard bind]. rewrite (path_parts_slashed _ F).
  now apply uri_segments.
Qed.
Print Assumptions C63_from_uri.
Theorem C63_none : from_uri None = Ok None.
Proof. reflexivity. Qed.
(* "ccnx:/a/b" *)
Example C63_from_uri_ex : Forall good_seg [[97]; [98; 233]] /\
  from_uri (Some [99; 99; 110; 120; 58; 47; 97; 47; 98; 233]) = Ok (Some [seg [97]; seg [98; 195; 169]]).
Proof.
  split; [|vm_compute; reflexivity].
  assert (G : forall c, scalar c = true -> existsb (Z.eqb c) [47; 63; 35; 9; 10; 13] = false -> good_char c).
  { intros c A B. split; [exact A|]. intros I. assert (existsb (Z.eqb c) [47; 63; 35; 9; 10; 13] = true); [|congruence].
    apply existsb_exists. exists c. split; [exact I|apply Z.eqb_refl]. }
  repeat constructor; try discriminate; now apply G.
Qed.

(* Different segments, different names. *)
Theorem C63_injective segs segs' n : Forall good_seg segs -> Forall good_seg segs' ->
  from_uri (Some (ccnx_colon ++ slashed segs)) = Ok (Some n) ->
  from_uri (Some (ccnx_colon ++ slashed segs')) = Ok (Some n) -> segs = segs'.
Proof.
  intros F F' H H'. destruct (C63_from_uri segs F) as (bs & E & R). destruct (C63_from_uri segs' F') as (bs' & E' & R').
  rewrite R in H. rewrite R' in H'. destruct (name_size bs <? 65536); [|discriminate].
  destruct (name_size bs' <? 65536); [|discriminate]. injection H as H. injection H' as H'.
  assert (bs = bs') as <-.
  { apply (f_equal (map c_val)) in H, H'. rewrite map_map in H, H'. unfold seg in *. cbn [c_val] in *.
    rewrite map_id in H, H'. congruence. }
  clear - E E'. revert segs' E'. induction E as [|s b segs bs A E IH]; intros segs' E'; inversion E' as [|s' b' segs2 bs2 A' E2]; subst; [reflexivity|].
  apply C63_utf8_encode in A, A'. f_equal; [congruence|auto].
Qed.
Print Assumptions C63_injective.

(* ---------------- C63: what every URI gives ---------------- *)

Lemma split_no_slash p s : In s (split_slash p) -> ~ In 47 s.
Proof.
  revert s. induction p as [|c p IH]; intros s.
  - intros [<-|[]] [].
  - cbn [split_slash]. destruct (c =? 47) eqn:E.
    + intros [<-|I]; [intros []|auto].
    + destruct (split_slash p) as [|x l] eqn:S.
      * intros [<-|[]] [Q|[]]. lia.
      * intros [<-|I]; [|apply IH; now right]. intros [Q|I]; [lia|]. now apply (IH x (or_introl eq_refl)).
Qed.
Lemma parts_member p s : In s (tl (path_parts p)) -> s <> [] /\ s <> [46] /\ ~ In 47 s.
Proof.
  assert (K : forall x, In x (filter (fun s => negb (beqb s [] || beqb s [46])) (split_slash p)) ->
            x <> [] /\ x <> [46] /\ ~ In 47 x).
  { intros x I. apply filter_In in I as [I F]. split; [|split; [|now apply (split_no_slash p)]].
    - intros ->. discriminate.
    - intros ->. discriminate. }
  intros I. apply K. unfold path_parts in I. cbv zeta in I. set (k := filter _ _) in *. clearbody k.
  assert (H : forall r : text, In s (tl (r :: k)) -> In s k) by (intros r Hr; exact Hr).
  assert (H' : In s (tl k) -> In s k) by (destruct k as [|y k]; [auto|intros Hr; now right]).
  repeat match type of I with context [match ?x with _ => _ end] => is_var x; destruct x end; eauto.
Qed.

(* Any result is a name of name segments only, each valid UTF-8, not empty,
   not "." and without "/", whose encoding parses back to it. *)
Theorem C63_shape u r : from_uri (Some u) = Ok r ->
  exists n t, r = Some n /\ name_tlv n = Ok t /\ name_parse t = Ok n /\
    Forall (fun c => c_type c = 1 /\ c_kind c = KBytes /\
      exists s, utf8_decode (c_val c) = Ok s /\ s <> [] /\ s <> [46] /\ ~ In 47 s) n.
Proof.
  intros H. unfold from_uri in H. destruct (url_split u) as [sch p]. inv_bind H. inv_bind H. inv_bind H.
  apply Ok_inj in H. subst r. rename a0 into n, a1 into t.
  assert (F : Forall (fun c => c_type c = 1 /\ c_kind c = KBytes /\
      exists s, utf8_decode (c_val c) = Ok s /\ s <> [] /\ s <> [46] /\ ~ In 47 s) n).
  { assert (G : forall l n, (forall s, In s l -> s <> [] /\ s <> [46] /\ ~ In 47 s) -> mapM uri_segment l = Ok n ->
      Forall (fun c => c_type c = 1 /\ c_kind c = KBytes /\
        exists s, utf8_decode (c_val c) = Ok s /\ s <> [] /\ s <> [46] /\ ~ In 47 s) n).
    { clear. induction l as [|s l IH]; intros n Hl M; cbn [mapM] in M.
      - injection M as <-. constructor.
      - inv_bind M. inv_bind M. apply Ok_inj in M. subst n. constructor.
        + unfold uri_segment in E. inv_bind E. inv_bind E. apply Ok_inj in E. subst a. cbn [c_type c_kind c_val].
          split; [reflexivity|]. split; [reflexivity|]. exists s. split; [now apply C63_utf8_encode|].
          apply Hl. now left.
        + apply IH; [|assumption]. intros; apply Hl; now right. }
    eapply G; [|eassumption]. intros s. apply parts_member. }
  exists n, t. split; [reflexivity|]. split; [assumption|]. split; [|assumption].
  rewrite (name_roundtrip n t) by assumption. f_equal. unfold name_norm.
  rewrite <- (map_id n) at 2. apply map_ext_Forall. eapply Forall_impl; [|exact F].
  intros [ty k v] (_ & K & _). cbn in *. now subst k.
Qed.
Print Assumptions C63_shape.
Example C63_shape_ex : exists r, from_uri (Some (ccnx_colon ++ [47; 97])) = Ok r.
Proof. eexists. vm_compute. reflexivity. Qed.

(* The scheme must be ccnx, in any case of letters. *)
Theorem C63_scheme s r : forallb scheme_char s = true -> match s with c :: _ => is_alpha c = true | [] => False end ->
  map lower s <> ccnx -> from_uri (Some (s ++ 58 :: r)) = Err AssertionError.
Proof.
  intros S A N. unfold from_uri.
  assert (P : forall c, scheme_char c = true -> 33 <= c /\ c <> 58).
  { intros c. unfold scheme_char, is_alpha. lia. }
  assert (L : lstrip (s ++ 58 :: r) = s ++ 58 :: r).
  { destruct s as [|c s]; [contradiction|]. cbn [forallb] in S. apply andb_prop in S as [S _]. apply P in S.
    cbn [app lstrip]. now replace (c <=? 32) with false by lia. }
  assert (E : fst (url_split (s ++ 58 :: r)) = map lower s).
  { unfold url_split. rewrite L. change (filter _ ?x) with (clean x). rewrite clean_app.
    assert (clean s = s) as ->.
    { clear - S P. induction s as [|c s IH]; [reflexivity|]. cbn [forallb] in S. apply andb_prop in S as [S1 S2].
      apply P in S1. unfold clean in *. cbn [filter]. rewrite (IH S2). now replace (_ || _ || _) with false by lia. }
    change (clean (58 :: r)) with (58 :: clean r). rewrite cut_app; [|clear - S P|reflexivity].
    - destruct s as [|c s]; [contradiction|]. now rewrite A, S.
    - induction s as [|c s IH]; [reflexivity|]. cbn [forallb] in *. apply andb_prop in S as [S1 S2].
      apply P in S1. rewrite (IH S2). now replace (c =? 58) with false by lia. }
  destruct (url_split (s ++ 58 :: r)) as [sch p]. cbn [fst] in E. subst sch.
  destruct (beqb (map lower s) ccnx) eqn:B; [apply beqb_spec in B; contradiction|reflexivity].
Qed.
Print Assumptions C63_scheme.
(* and letters of either case are the same *)
Theorem C63_scheme_case s r : Forall2 (fun a b => a = b \/ a = b - 32) s ccnx ->
  from_uri (Some (s ++ 58 :: r)) = from_uri (Some (ccnx_colon ++ r)).
Proof.
  intros H. unfold ccnx in H.
  repeat match goal with F : Forall2 _ _ (_ :: _) |- _ => inversion F; subst; clear F end.
  match goal with F : Forall2 _ ?l [] |- _ => inversion F; subst l; clear F end.
  repeat match goal with H : _ \/ _ |- _ => destruct H as [->| ->] end; reflexivity.
Qed.
Print Assumptions C63_scheme_case.
(* "http:/a" fails, "CCNx:/a" does not *)
Example C63_scheme_ex : from_uri (Some [104; 116; 116; 112; 58; 47; 97]) = Err AssertionError /\
  from_uri (Some [67; 67; 78; 120; 58; 47; 97]) = Ok (Some [seg [97]]).
Proof. vm_compute. auto. Qed.

(* ---------------- C63: what is lost ---------------- *)

Lemma from_uri_path r r' : rest_path (clean r) = rest_path (clean r') ->
  from_uri (Some (ccnx_colon ++ r)) = from_uri (Some (ccnx_colon ++ r')).
Proof. intros E. unfold from_uri. now rewrite !url_split_ccnx, E. Qed.

(* A query or fragment is ignored, *)
Theorem C63_query_refuted segs c q : Forall good_seg segs -> c = 63 \/ c = 35 ->
  from_uri (Some (ccnx_colon ++ slashed segs ++ c :: q)) = from_uri (Some (ccnx_colon ++ slashed segs)).
Proof.
  intros F C. apply from_uri_path. rewrite clean_app, (slashed_clean _ F).
  pose proof (slashed_rest segs [] F I) as R. rewrite app_nil_r in R. rewrite R.
  assert (clean (c :: q) = c :: clean q) as -> by (destruct C as [->| ->]; reflexivity).
  now apply slashed_rest.
Qed.
(* an authority part is ignored, *)
Theorem C63_authority_refuted host segs :
  Forall (fun c => good_char c /\ c < 128 /\ c <> 91 /\ c <> 93) host -> Forall good_seg segs ->
  from_uri (Some (ccnx_colon ++ 47 :: 47 :: host ++ slashed segs)) = from_uri (Some (ccnx_colon ++ slashed segs)).
Proof.
  intros H F. apply from_uri_path.
  assert (G : Forall good_char host) by (eapply Forall_impl; [|exact H]; now intros c [A _]).
  pose proof (slashed_rest segs [] F I) as R. rewrite app_nil_r in R.
  rewrite (slashed_clean _ F). rewrite R.
  change (clean (47 :: 47 :: ?x)) with (47 :: 47 :: clean x).
  rewrite clean_app, (good_clean _ G), (slashed_clean _ F). unfold rest_path. cbn [skip_authority].
  rewrite cut_app.
  - cbn [snd]. pose proof (query_cut (slashed segs) [] (slashed_chars _ F) I) as Q. now rewrite app_nil_r in Q.
  - clear - G. induction G as [|c l C G IH]; [reflexivity|]. cbn [forallb]. rewrite IH.
    rewrite (no_s c C), (no_q c (or_intror C)), (no_h c (or_intror C)). reflexivity.
  - destruct segs; [exact I|reflexivity].
Qed.
(* and the first segment of a relative path is lost. *)
Theorem C63_relative_refuted s segs : good_seg s -> Forall good_seg segs ->
  from_uri (Some (ccnx_colon ++ s ++ slashed segs)) = from_uri (Some (ccnx_colon ++ slashed segs)).
Proof.
  intros (N & D & G) F. unfold from_uri. rewrite !url_split_ccnx, clean_app, (good_clean _ G), (slashed_clean _ F).
  pose proof (slashed_rest segs [] F I) as R. rewrite app_nil_r in R. rewrite R.
  assert (R2 : rest_path (s ++ slashed segs) = s ++ slashed segs).
  { unfold rest_path. assert (skip_authority (s ++ slashed segs) = s ++ slashed segs) as ->.
    { destruct s as [|c s]; [contradiction|]. inversion G as [|? ? Gc _]; subst. pose proof (no_s c Gc) as Nc.
      cbn [app]. destruct c as [|c|c]; try reflexivity. do 6 (destruct c as [c|c|]; try reflexivity). discriminate. }
    pose proof (query_cut (s ++ slashed segs) []) as Q. rewrite app_nil_r in Q. apply Q; [|exact I].
    apply Forall_app. split; [eapply Forall_impl; [|exact G]; auto|now apply slashed_chars]. }
  rewrite R2. cbv beta iota. rewrite (path_parts_slashed _ F).
  assert (E : tl (path_parts (s ++ slashed segs)) = segs); [|now rewrite E].
  assert (K : filter (fun s => negb (beqb s [] || beqb s [46])) (split_slash (s ++ slashed segs)) = s :: segs).
  { rewrite split_app by (eapply Forall_impl; [|exact G]; apply no_s). rewrite (split_slashed _ F), app_nil_r.
    apply (keep_good (s :: segs)). constructor; [|exact F]. split; auto. }
  unfold path_parts. rewrite K. cbv zeta.
  destruct s as [|c s]; [contradiction|]. inversion G as [|? ? Gc _]; subst. pose proof (no_s c Gc) as Nc.
  cbn [app]. destruct c as [|c|c]; try reflexivity. do 6 (destruct c as [c|c|]; try reflexivity). discriminate.
Qed.
Print Assumptions C63_query_refuted.
Print Assumptions C63_authority_refuted.
Print Assumptions C63_relative_refuted.
(* "ccnx:/a?b", "ccnx://h/a", "ccnx:b/a" *)
Example C63_lost_ex : from_uri (Some (ccnx_colon ++ [47; 97; 63; 98])) = Ok (Some [seg [97]]) /\
  from_uri (Some (ccnx_colon ++ [47; 47; 104; 47; 97])) = Ok (Some [seg [97]]) /\
  from_uri (Some (ccnx_colon ++ [98; 47; 97])) = Ok (Some [seg [97]]).
Proof. vm_compute. auto. Qed.

(* The URI that as_uri gives is not one of the name: every segment gets the
   prefix "Name=". *)
Lemma slashed_join l : l <> [] -> 47 :: join 47 l = slashed l.
Proof.
  induction l as [|s l IH]; [contradiction|]. intros _. cbn [slashed flat_map]. destruct l as [|s' l].
  - cbn [flat_map join]. now rewrite app_nil_r.
  - change (join 47 (s :: s' :: l)) with (s ++ 47 :: join 47 (s' :: l)). rewrite IH by discriminate.
    reflexivity.
Qed.
Theorem C63_as_uri_refuted other segs bs : segs <> [] -> Forall good_seg segs ->
  Forall2 (fun s b => utf8_encode s = Ok b) segs bs ->
  as_uri other (map seg bs) = Ok (ccnx_colon ++ slashed (map (app t_name) segs)) /\
  from_uri (Some (ccnx_colon ++ slashed (map (app t_name) segs))) <> Ok (Some (map seg bs)).
Proof.
  intros N F E. split.
  - unfold as_uri. assert (M : mapM (comp_repr other) (map seg bs) = Ok (map (app t_name) segs)).
    { clear N F. induction E as [|s b segs bs A E IH]; [reflexivity|]. cbn [map mapM]. rewrite IH.
      unfold comp_repr. cbn [seg c_type c_kind c_val]. change (1 =? T_CHUNKID) with false.
      change (1 =? T_NAMESEGMENT) with true. cbv iota. rewrite (C63_utf8_encode _ _ A). reflexivity. }
    rewrite M. cbn [bind]. f_equal. rewrite <- slashed_join by (destruct segs; [contradiction|discriminate]). reflexivity.
  - assert (F' : Forall good_seg (map (app t_name) segs)).
    { apply Forall_forall. intros x I. apply in_map_iff in I as (s & <- & I). rewrite Forall_forall in F.
      destruct (F s I) as (_ & _ & G). split; [discriminate|]. split; [discriminate|]. apply Forall_app. split; [|exact G].
      repeat constructor; cbn; lia. }
    destruct (C63_from_uri _ F') as (bs' & E' & R). rewrite R. destruct (name_size bs' <? 65536); [|discriminate].
    intros H. injection H as H.
    apply (f_equal (map c_val)) in H. rewrite !map_map in H. unfold seg in H. cbn [c_val] in H. rewrite !map_id in H. subst bs'.
    destruct E as [|s b segs bs A _]; [contradiction|]. cbn [map] in E'. inversion E' as [|? ? ? ? A' _]; subst.
    apply C63_utf8_encode in A, A'. rewrite A in A'. apply Ok_inj in A'. apply (f_equal (@length Z)) in A'.
    cbn in A'. lia.
Qed.
Print Assumptions C63_as_uri_refuted.
Example C63_as_uri_ex : as_uri (fun _ => []) [seg [97]; mkComp T_CHUNKID KArray [1; 2]] =
  Ok (ccnx_colon ++ [47; 78; 97; 109; 101; 61; 97; 47; 67; 104; 117; 110; 107; 73; 100; 61; 50; 53; 56]).
Proof. vm_compute. reflexivity. Qed.
