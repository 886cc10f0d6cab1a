(** Model of the times in anthunder/client/client.py:99-141 (invoke_sync of the synchronous client) with
    mysockpool/connection.py:57-62 and mysockpool/_wait.py (wait_for_write without a timeout).
    Times are integers in any unit in which a second is [SECOND]; the clock does not go backwards. *)
From Verif Require Import PyBase M_SofaHeader M_Package M_SyncClient.

Definition SECOND : Z := 1000000.

(** ** What the server's side does to the connection *)

(** Every byte the server sends, with the time at which it has come through the network; a byte is readable when it
    and all bytes before it have come. After the last one nothing more comes, or the end of the stream does. *)
Record wire := { w_bytes : list (Z * byte); w_end : option Z }.
Definition sent (w : wire) : bytes := map snd (w_bytes w).

(** the number of bytes that can be read, or have been, by time t *)
Fixpoint arrived (t : Z) (l : list (Z * byte)) : nat :=
  match l with
  | [] => 0
  | (u, _) :: r => if u <=? t then S (arrived t r) else 0
  end.

(** the time from which on the socket is readable after k bytes were read; None: never *)
Fixpoint readable_from (k : nat) (m : Z) (l : list (Z * byte)) (e : option Z) {struct l} : option Z :=
  match l with
  | [] => option_map (Z.max m) e
  | (u, _) :: r => match k with O => Some (Z.max m u) | S k' => readable_from k' (Z.max m u) r e end
  end.

(** ** The loop, client.py:122-133 *)

(** One round: the time the client takes until select is called, the time from the moment select has something to
    report until recv is called, and how many bytes recv returns at most (more than that number by one). *)
Record round := { r_before : Z; r_after : Z; r_upto : nat }.

Inductive toutcome :=
| TWaiting (t : Z) (s : rstate)
| TStopped (e : exn) (t : Z) (s : rstate)
| TReceived (t : Z) (s : rstate).

(** select(timeout=deadline - now): if the socket is readable it returns at once; otherwise it waits until it is,
    until the deadline at the latest (not at all if the deadline is over: a timeout below 0 is a poll).
    All bytes read so far are in the buffer, on a connection that nobody has used before (C39). *)
Fixpoint timed_loop (w : wire) (deadline : Z) (rounds : list round) (now : Z) (s : rstate) : toutcome :=
  if len (y_buf s) <? y_total s then
    match rounds with
    | [] => TWaiting now s
    | r :: rest =>
        let t := now + r_before r in
        let give_up := Z.max t deadline in
        let k := List.length (y_buf s) in
        match readable_from k t (w_bytes w) (w_end w) with
        | Some u =>
            if u <=? give_up then
              let t' := u + r_after r in
              match receive (Nat.min (r_upto r) (arrived t' (w_bytes w) - k - 1)) s with
              | Ok s' => timed_loop w deadline rest t' s'
              | Raise e => TStopped e t' s
              end
            else TStopped TimeoutError (give_up + r_after r) s
        | None => TStopped TimeoutError (give_up + r_after r) s
        end
    end
  else TReceived now s.

(** ** The call, client.py:113-141 *)

(** line 113 *)
Definition deadline_of (start timeout : Z) : Z := start + timeout + SECOND.

Inductive tresult :=
| TSending                                 (* in wait_for_write, which has no timeout: the socket never becomes writable *)
| TReading (t : Z)                         (* in the loop when the rounds end, at time t *)
| TDone (t : Z) (r : res pyobj).

(** [writable]: the time at which the socket becomes writable, that is, the connection is established (None: never);
    [send_time]: what the client itself takes for sending. One round of the send loop (client.py:72-86), which
    takes all bytes; the others are in M_SyncClient.send_loop. [back], [back_time]: what giving the connection back
    does (M_SyncClient.sync_result) and how long it takes. *)
Definition timed_call (w : wire) (start timeout : Z) (rid : Z) (writable : option Z) (send_time : Z) (rounds : list round) (back : res unit) (back_time : Z) : tresult :=
  match writable with
  | None => TSending
  | Some c =>
      match timed_loop w (deadline_of start timeout) rounds (Z.max start c + send_time) (rinit (sent w)) with
      | TWaiting t _ => TReading t
      | TStopped e t _ => TDone t (Raise e)
      | TReceived t s => TDone (t + back_time) (let! _ := back in finish rid s)
      end
  end.
