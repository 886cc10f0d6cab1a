(** Model of mysockpool/connection.py:57-76 ([send], [sendall], [recvexactly]) with mysockpool/_wait.py:33-64,
    on one socket. *)
From Verif Require Import PyBase.

(** the socket: what has come and was not read; the other side has closed; closed here.
    [k_all] is not in the code: everything that has come so far. *)
Record sk := { k_queue : bytes; k_end : bool; k_closed : bool; k_all : bytes }.

(** a thread in [recvexactly(size)]: [buf] is what the BytesIO holds (its length is [read]); the calls that
    have ended, with what they ended *)
Record rx := { x_sk : sk; x_cur : option (Z * bytes); x_log : list (Z * res bytes) }.
Definition rx_init : rx :=
  {| x_sk := {| k_queue := []; k_end := false; k_closed := false; k_all := [] |}; x_cur := None; x_log := [] |}.

Inductive xstep :=
| XCall (size : Z)      (* recvexactly(size) is called; the thread is in one call at a time *)
| XGo (n : nat)         (* the thread goes on: one round of the loop, in which recv gives at most n+1 bytes *)
| XFail                 (* the thread goes on, and [recv] fails *)
| XArrive (bs : bytes) | XEnd        (* the network; nothing comes after the end *)
| XClose.               (* [close], lines 51-55, by any thread *)

Definition sk_take (n : Z) (k : sk) : sk :=
  {| k_queue := py_drop n (k_queue k); k_end := k_end k; k_closed := k_closed k; k_all := k_all k |}.
Definition x_end (size : Z) (r : res bytes) (s : rx) : rx := {| x_sk := x_sk s; x_cur := None; x_log := x_log s ++ [(size, r)] |}.
Definition x_set (k : sk) (s : rx) : rx := {| x_sk := k; x_cur := x_cur s; x_log := x_log s |}.

(** lines 68-76. [wait_for_read] has no timeout: it returns when the socket is readable, that is, when there
    are bytes, at the end of the stream, or when there is an error ([XFail]: any error of [recv], after which
    the socket may or may not be of use). A closed socket cannot be registered
    with the selector (_wait.py:46-49). [recv] returns b"" at the end. *)
Definition x_go (n : nat) (s : rx) : rx :=
  match x_cur s with
  | None => s
  | Some (size, buf) =>
      let k := x_sk s in
      if len buf <? size then
        if k_closed k then x_end size (Raise SocketValueError) s
        else match k_queue k with
             | [] => s                                   (* waits; or, at the end, reads b"" and goes round *)
             | _ => let bs := py_take (Z.min (Z.of_nat n + 1) (size - len buf)) (k_queue k) in
                    {| x_sk := sk_take (len bs) k; x_cur := Some (size, buf ++ bs); x_log := x_log s |}
             end
      else x_end size (Ok buf) s
  end.

Definition x_fail (s : rx) : rx :=
  match x_cur s with
  | None => s
  | Some (size, buf) => if len buf <? size then x_end size (Raise (if k_closed (x_sk s) then SocketValueError else OSError)) s
                        else x_end size (Ok buf) s
  end.

Definition x_step (s : rx) (o : xstep) : rx :=
  let k := x_sk s in
  match o with
  | XCall size => match x_cur s with None => {| x_sk := k; x_cur := Some (size, []); x_log := x_log s |} | Some _ => s end
  | XGo n => x_go n s
  | XFail => x_fail s
  | XArrive bs => if k_end k then s
                  else x_set {| k_queue := k_queue k ++ bs; k_end := false; k_closed := k_closed k; k_all := k_all k ++ bs |} s
  | XEnd => x_set {| k_queue := k_queue k; k_end := true; k_closed := k_closed k; k_all := k_all k |} s
  | XClose => x_set {| k_queue := k_queue k; k_end := k_end k; k_closed := true; k_all := k_all k |} s
  end.
Definition x_run (l : list xstep) : rx := fold_left x_step l rx_init.

(** what the system does with one attempt to write the rest of the data: it takes up to n+1 bytes, it has no
    room at the moment, or the connection is broken *)
Inductive room := Room (n : nat) | Full | Broke.

(** lines 61-63: [wait_for_write], then [socket.sendall]. The first attempt meets room or a broken connection,
    for the socket is writable. A blocking socket waits when there is no room; a non-blocking one raises
    BlockingIOError. The result is what was written and how the call ended; None: it has not. *)
Fixpoint sendall (blocking : bool) (data : bytes) (l : list room) : bytes * option (res unit) :=
  match data with
  | [] => ([], Some (Ok tt))
  | _ => match l with
         | [] => ([], None)
         | Room n :: r => let k := Z.of_nat n + 1 in
                          let '(w, e) := sendall blocking (py_drop k data) r in (py_take k data ++ w, e)
         | Full :: r => if blocking then sendall blocking data r else ([], Some (Raise OSError))
         | Broke :: _ => ([], Some (Raise OSError))
         end
  end.
