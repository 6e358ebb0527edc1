(* C66: the stream of the network writer. *)
From Coq Require Import ZArith List Bool Lia ZifyBool.
From Verif Require Import Py Tlv Float Core TlvProofs CoreProofs PropsCore Crypto CryptoProofs PropsCrypto Tree Store StoreSpec StoreProofs PropsStore
  Traversal EndSpec PropsDir Net.
Import ListNotations.
Open Scope Z_scope.
Opaque tlv_make tlv_wire tlv_deserialize.

(* How a receiver cuts a stream into packets: the third and fourth byte of a
   packet are its length (RFC 8609, section 3.2). *)
Inductive framed : bytes -> list bytes -> Prop :=
| framed_nil : framed [] []
| framed_cons a b x y r ws rest : let w := a :: b :: x :: y :: r in
    zlen w = x * 256 + y -> framed rest ws -> framed (w ++ rest) (w :: ws).

(* The cut is unique, *)
Lemma framed_unique s ws : framed s ws -> forall ws', framed s ws' -> ws = ws'.
Proof.
  intros H. induction H as [|a b x y r ws rest w L H IH]; intros ws' H'.
  - remember [] as s eqn:Es in H'. destruct H'; [reflexivity|discriminate].
  - remember (w ++ rest) as s eqn:Es. destruct H' as [|a' b' x' y' r' ws' rest' w' L' H']; [discriminate|].
    unfold w, w' in Es, L, L'. cbn [app] in Es. injection Es as <- <- <- <- Es.
    assert (r' = r /\ rest' = rest) as [-> ->].
    { assert (Ln : length r' = length r) by (unfold zlen in *; cbn [length] in *; lia).
      clear - Es Ln. revert r Ln Es. induction r' as [|z r' IH]; intros [|z' r] Ln Es; try discriminate Ln; cbn [app] in Es; [auto|].
      injection Es as -> Es. cbn [length] in Ln. destruct (IH r) as [-> ->]; auto. }
    fold w. f_equal. now apply IH.
Qed.

Lemma storable_frame p w : storable p -> packet_wire p = Ok w ->
  exists a b x y r, w = a :: b :: x :: y :: r /\ zlen w = x * 256 + y.
Proof.
  intros S H. pose proof H as X. apply packet_wire_ok in X as (h & c & b & l2 & l3 & Hh & _ & _ & _ & _ & _ & _ & Hw & Hi).
  pose proof (storable_hdr p w _ S H Hi) as Hd. rewrite Hd in Hh.
  pose proof (hdr_serialize_ok _ _ Hh) as [Lh _]. set (i := wires _) in *.
  unfold hdr_serialize, hdr_content in Hh. cbn [f_fields f_ver f_ptype f_plen f_hlen] in Hh. mon. subst h w.
  eexists _, _, _, _, _. split; [reflexivity|]. rewrite zlen_app, Lh.
  pose proof (zlen_nonneg i). Z.to_euclidean_division_equations. lia.
Qed.

Lemma net_stream ps : forall sent s, net_puts (Some sent) ps = Ok s ->
  exists ws, Forall2 (fun p w => packet_wire p = Ok w) ps ws /\ s = Some (sent ++ concat ws).
Proof.
  induction ps as [|p ps IH]; intros sent s H; unfold net_puts in *; cbn [foldM] in H.
  - apply Ok_inj in H. subst s. exists []. cbn [concat]. rewrite app_nil_r. split; [constructor|reflexivity].
  - inv_bind H. cbn [net_put] in E. inv_bind E. apply Ok_inj in E. subst a. destruct (IH _ _ H) as (ws & F & ->).
    exists (a0 :: ws). split; [now constructor|]. cbn [concat]. now rewrite app_assoc.
Qed.

(* C66.  What was sent, cut by the length fields, is exactly the packets that
   were put, in order, and each parses back to a packet with the same fields
   and the same bytes. *)
Theorem C66_stream : forall ps s, Forall storable ps -> net_puts net_new ps = Ok (Some s) ->
  exists ws, Forall2 (fun p w => packet_wire p = Ok w /\
      forall now, exists p', packet_deserialize now w = Ok p' /\ same_packet p' p /\ packet_wire p' = Ok w) ps ws /\
    framed s ws /\ forall ws', framed s ws' -> ws' = ws.
Proof.
  intros ps s F H. apply net_stream in H as (ws & W & E). injection E as ->. cbn [app].
  exists ws. assert (Fr : framed (concat ws) ws).
  { clear - F W. induction W as [|p w ps ws Hw W IH]; [constructor|]. inversion F; subst. cbn [concat].
    destruct (storable_frame p w) as (a & b & x & y & r & -> & L); try assumption. apply framed_cons; auto. }
  split; [|split; [exact Fr|intros ws' Fr'; eapply framed_unique; eassumption]].
  clear - F W. induction W as [|p w ps ws Hw W IH]; [constructor|]. inversion F; subst. constructor; [|auto].
  split; [assumption|]. intros now. destruct (storable_wf p) as (w' & Wf & Hw'); [assumption|].
  assert (w' = w) as -> by congruence. exists (packet_norm p). split; [apply packet_roundtrip; assumption|]. split; [|rewrite packet_wire_norm; assumption].
  apply packet_wire_ok in Hw as (_ & c & _ & _ & _ & _ & Hb & _). exact (same_packet_norm p c Hb).
Qed.
(* All of this is sent. *)
Theorem C66_sent : forall ps, Forall storable ps -> exists s, net_puts net_new ps = Ok (Some s).
Proof.
  intros ps F. assert (G : forall sent, exists s, net_puts (Some sent) ps = Ok (Some s)); [|apply G].
  induction F as [|p ps S F IH]; intros sent; [exists sent; reflexivity|].
  destruct (storable_wf p S) as (w & _ & Hw). unfold net_puts in *. cbn [foldM net_put]. rewrite Hw. cbn [bind]. apply IH.
Qed.
(* Nothing is sent on a closed connection. *)
Theorem C66_closed : forall s p, net_put (net_close s) p = Err AttributeError.
Proof. reflexivity. Qed.
Print Assumptions C66_stream.
Print Assumptions C66_sent.
Print Assumptions C66_closed.
Example C66_ex : match (p <- ex_pkt (Some ex_nm) [1; 2] ;; q <- ex_pkt None [3] ;; net_puts net_new [p; q; p]) with
  | Ok (Some s) => zlen s = 32 + 22 + 32
  | _ => False
  end.
Proof. vm_compute. reflexivity. Qed.
