(** What C129 says about how a call of the asyncio client ends (M_AioClient). *)
From Verif Require Import PyBase PyDict M_SofaHeader M_Package M_AioClient.
Open Scope nat_scope.

(** the coroutine is on its way to having sent its request *)
Definition on_the_way (p : pc) : Prop := match p with WaitLock _ _ | Dialing _ _ | Drain1 _ _ | Drain2 _ _ => True | _ => False end.
(** a reply was read on some connection *)
Definition got (s : st) (p : pkg) : Prop := exists c k frame, nth_error (s_links s) c = Some k /\ In frame (k_frames k) /\ from_stream BoltResponse frame = Ok p.
(** it says that the call has succeeded *)
Definition says_ok (p : pkg) : Prop := p_cmdcode p = CMDCODE_RESPONSE /\ p_respstatus p = ST_SUCCESS.
(** a reply with this id was read that does not *)
Definition told_off (s : st) (rid : Z) : Prop := exists p, got s p /\ rid_of p = rid /\ ~ says_ok p.
(** a reply with this id was read while call i was still on its way to having sent its request *)
Definition too_early (t : timer) (l : list step) (i : nat) (rid : Z) : Prop := exists l1 c l2 tk k k' frame p, l = l1 ++ Read c :: l2 /\
  nth_error (s_tasks (run t l1)) i = Some tk /\ on_the_way (t_pc tk) /\ rid_of (t_req tk) = rid /\
  nth_error (s_links (run t l1)) c = Some k /\ nth_error (s_links (run t (l1 ++ [Read c]))) c = Some k' /\ k_frames k' = k_frames k ++ [frame] /\ from_stream BoltResponse frame = Ok p /\ rid_of p = rid.
(** sending it failed: a dial, a flush, or its encoding *)
Definition not_sent (l : list step) (i : nat) (tk : task) : Prop := In (DialFail i) l \/ In (DrainFail i) l \/ exists e, to_stream (t_req tk) = Raise e.
(** why a call ended as it did *)
Definition outcome (t : timer) (l : list step) (i : nat) (tk : task) (r : ret) : Prop :=
  match r with
  | RetPkg p => got (run t l) p /\ rid_of p = rid_of (t_req tk) /\ says_ok p
  | RetNone => p_ptype (t_req tk) = PTYPE_ONEWAY \/ not_sent l i tk
  | RetErr e => t_addr tk = Raise e \/ (e = CancelledError /\ In (Cancel i) l) \/ (e = KeyError /\ (told_off (run t l) (rid_of (t_req tk)) \/ too_early t l i (rid_of (t_req tk))))
  end.
