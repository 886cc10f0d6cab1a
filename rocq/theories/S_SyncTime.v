(** Specification for C94: how long a call of the synchronous client takes. *)
From Verif Require Import PyBase M_SofaHeader M_Package S_Wire M_SyncClient M_SyncTime.

(** the server's bytes begin with a response, which has come completely by time d *)
Definition answered_by (d : Z) (w : wire) (frame : bytes) : Prop :=
  exists n, map snd (firstn n (w_bytes w)) = frame /\ List.length frame = n /\ Forall (fun x => fst x <= d) (firstn n (w_bytes w)).

(** the server has sent no complete response and has closed its side of the connection, all by time d *)
Definition closed_early (d : Z) (w : wire) : Prop :=
  Forall (fun x => fst x <= d) (w_bytes w) /\ (exists e, w_end w = Some e /\ e <= d) /\
  exists frame f x, response_layout frame f /\ frame = map snd (w_bytes w) ++ x /\ x <> [].

(** what the caller has got, and when; None: the call has not returned when the rounds end *)
Definition returned (r : tresult) : option (Z * res pyobj) := match r with TDone t v => Some (t, v) | _ => None end.

(** the time the client itself takes; none of its steps takes less than no time *)
Definition forward (r : round) : Prop := 0 <= r_before r /\ 0 <= r_after r.
Definition own_time (rounds : list round) : Z := fold_right (fun r n => r_before r + r_after r + n) 0 rounds.

(** the verdict on a well-formed response, as in C36 *)
Definition verdict (rid : Z) (f : frame) : res pyobj :=
  if fr_request_id f =? rid then if fr_tos f =? 0 then Ok (PBytes (fr_content f)) else Raise ServerError else Raise ServerError.

(** the longest response there is: 20 bytes, two names or maps of two-byte length and a content of four-byte length *)
Definition longest : Z := 20 + 65535 + 65535 + 4294967295.
