(* The network writer: flic/tree/TreeIO.py:278-297. *)
From Coq Require Import ZArith List Bool.
From Verif Require Import Py Core.
Import ListNotations.
Open Scope Z_scope.

(* The bytes sent on the connection so far; None when it is closed
   (self._socket is None).  The TCP connection is an ordered stream of bytes;
   connection failures are not modelled. *)
Definition net := option bytes.
(* TreeIO.py:282-286 __init__ *)
Definition net_new : net := Some [].
(* TreeIO.py:288-291 close; what was sent stays sent, see net_puts *)
Definition net_close (s : net) : net := None.
(* TreeIO.py:293-294 put: the packet is serialized before the socket is used,
   but self._socket.sendall is looked up first: None has no sendall *)
Definition net_put (s : net) (p : packet) : res net :=
  match s with
  | None => Err AttributeError
  | Some sent => w <- packet_wire p ;; Ok (Some (sent ++ w))
  end.
Definition net_puts (s : net) (ps : list packet) : res net := foldM net_put s ps.
