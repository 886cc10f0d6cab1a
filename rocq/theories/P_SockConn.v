(** C101: exact reads and complete writes on one connection. *)
From Verif Require Import PyBase M_SockConn S_SockConn L_SockConn.

(** However the bytes come, and whatever fails: the calls of recvexactly, one after another, take consecutive
    pieces of the stream; a call that returns returns exactly as many bytes as asked for, and one that raises
    loses fewer. *)
Theorem C101_stream_consumed l : exists rest, consumed (x_log (x_run l)) (k_all (x_sk (x_run l))) rest.
Proof. exact (c101_stream l). Qed.
Print Assumptions C101_stream_consumed.

(** So when no call raised, the results are the stream cut by the sizes. *)
Theorem C101_stream_cut l :
  Forall returned (x_log (x_run l)) ->
  map snd (x_log (x_run l)) = map Ok (cut (map fst (x_log (x_run l))) (k_all (x_sk (x_run l)))) /\
  total (map fst (x_log (x_run l))) <= len (k_all (x_sk (x_run l))).
Proof. exact (c101_pieces l). Qed.
Print Assumptions C101_stream_cut.

(** The stream is all that has come: no byte is lost on the way. *)
Theorem C101_stream_is_what_came l : k_all (x_sk (x_run l)) = came l.
Proof. exact (proj1 (sk_of l)). Qed.
Print Assumptions C101_stream_is_what_came.

(** A call raises only when recv fails, or when somebody has closed the connection, ... *)
Theorem C101_why_raised l size e : In (size, Raise e) (x_log (x_run l)) -> (e = OSError /\ In XFail l) \/ (e = SocketValueError /\ In XClose l).
Proof. exact (why_raised l size e). Qed.
Print Assumptions C101_why_raised.
(** ... and then a call that needs more bytes does, even if they have come. *)
Theorem C101_closed_raises l size buf n : x_cur (x_run l) = Some (size, buf) -> In XClose l -> len buf < size ->
  x_log (x_run (l ++ [XGo n])) = x_log (x_run l) ++ [(size, Raise SocketValueError)].
Proof. exact (closed_ends l size buf n). Qed.
Print Assumptions C101_closed_raises.

(** A call for which enough bytes are there returns after at most as many rounds as bytes are missing, and one. *)
Theorem C101_read_ends_partial l s size buf :
  x_cur s = Some (size, buf) -> len buf <= Z.max 0 size -> size - len buf <= len (k_queue (x_sk s)) ->
  k_closed (x_sk s) = false -> Forall quiet l -> Z.max 0 (size - len buf) < gos l ->
  exists l', x_log (fold_left x_step l s) = x_log s ++ (size, Ok (buf ++ py_take (size - len buf) (k_queue (x_sk s)))) :: l'.
Proof. exact (c101_ends l s size buf). Qed.
Print Assumptions C101_read_ends_partial.

(** That every call ends is false: when the other side closes before [size] bytes have come, recvexactly reads
    b"" for ever. *)
Theorem C101_read_at_end_refuted size bs l :
  len bs < size -> Forall quiet l ->
  let s := x_run ([XArrive bs; XEnd; XCall size] ++ l) in
  (exists buf, x_cur s = Some (size, buf)) /\ x_log s = [].
Proof. exact (c101_never size bs l). Qed.
Print Assumptions C101_read_at_end_refuted.

(** What sendall has written is a beginning of the data; all of it when the call returns, less when it raises. *)
Theorem C101_written_prefix bl l d w e :
  sendall bl d l = (w, e) ->
  exists r, d = w ++ r /\
    match e with Some (Ok _) => r = [] | Some (Raise x) => x = OSError /\ r <> [] | None => r <> [] end.
Proof. exact (sendall_spec bl l d w e). Qed.
Print Assumptions C101_written_prefix.

(** A connection made with blocking=True writes everything if there is room again and again. *)
Theorem C101_all_written_partial d l :
  ~ In Broke l -> len d <= rooms l -> sendall true d l = (d, Some (Ok tt)).
Proof. exact (sendall_blocking l d). Qed.
Print Assumptions C101_all_written_partial.

(** One made as the pool makes it raises as soon as the buffers are full, after any part of the data, however
    much room there will be. *)
Theorem C101_all_written_refuted d n l :
  (n + 1 < length d)%nat -> sendall false d (Room n :: Full :: l) = (firstn (S n) d, Some (Raise OSError)).
Proof. exact (sendall_full d n l). Qed.
Print Assumptions C101_all_written_refuted.

(** three reads of a stream that comes in other pieces *)
Definition demo : list xstep :=
  [XCall 3; XGo 9; XArrive [Byte.x01; Byte.x02]; XGo 0; XGo 9; XArrive [Byte.x03; Byte.x04; Byte.x05]; XGo 9; XGo 0; XCall (-1); XGo 0; XCall 2; XGo 9; XGo 9].
Example C101_demo : x_log (x_run demo) = [(3, Ok [Byte.x01; Byte.x02; Byte.x03]); (-1, Ok []); (2, Ok [Byte.x04; Byte.x05])].
Proof. vm_compute. reflexivity. Qed.
Example C101_demo_failure :
  x_log (x_run [XArrive [Byte.x01; Byte.x02; Byte.x03]; XCall 3; XGo 0; XFail; XCall 2; XGo 9; XGo 0; XClose; XCall 1; XGo 0]) =
  [(3, Raise OSError); (2, Ok [Byte.x02; Byte.x03]); (1, Raise SocketValueError)].
Proof. vm_compute. reflexivity. Qed.
Example C101_demo_ends :
  let s := x_run [XCall 3; XArrive [Byte.x01; Byte.x02]; XGo 0; XArrive [Byte.x03; Byte.x04]] in
  x_cur s = Some (3, [Byte.x01]) /\ 3 - len [Byte.x01] <= len (k_queue (x_sk s)) /\ k_closed (x_sk s) = false.
Proof. vm_compute. repeat split; discriminate. Qed.
Example C101_demo_write :
  sendall true [Byte.x01; Byte.x02; Byte.x03] [Room 0; Full; Room 5; Full; Room 0] = ([Byte.x01; Byte.x02; Byte.x03], Some (Ok tt)) /\
  sendall false [Byte.x01; Byte.x02; Byte.x03] [Room 0; Full; Room 5] = ([Byte.x01], Some (Raise OSError)) /\
  sendall false [Byte.x01; Byte.x02; Byte.x03] [Room 1; Room 0] = ([Byte.x01; Byte.x02; Byte.x03], Some (Ok tt)) /\
  sendall true [Byte.x01; Byte.x02; Byte.x03] [Room 1; Full] = ([Byte.x01; Byte.x02], None).
Proof. vm_compute. repeat split. Qed.
