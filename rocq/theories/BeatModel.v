(** * BeatModel: the heartbeats of a client session (msc_client/session/session.go:263-299).

    [ClientModel.HealthCheck] is the verdict; here are the packets that asking for it writes.  HealthCheck
    is called by PeekSession (session_factory.go:150, 155), by the maintenance (session_factory.go:77-83
    LruPriority in every comparison of the sort, and line 290) and by the receiver before each packet
    (session.go:116).  It changes nothing in the session, so a call is an event of its own between the
    steps of the client. *)
From Verif Require Import Base OptionsModel CmppModel SgipModel SmgpModel FrameModel ClientModel.

(** session/session.go:276-299 ActiveTest: the packet, if the protocol has one; [q]: the B32Seq value. *)
Definition ActiveTest_packet (p : proto) (q : Z) : option (res bytes) :=
  match p with
  | P_CMPP => Some (head_Encode (NewActiveTest (u32 q)))
  | P_SGIP => None
  | P_SMGP => Some (smhead_Encode (CHead 12 SM_ACTIVE_TEST (u32 q)))
  end.
(** session.go:276-299: whether it returns an error, and what was written.  [wok]: the write succeeds.  A
    failed write is logged; the error is not returned (line 296).  A nil con panics. *)
Definition ActiveTest (s : csess) (q : Z) (wok : bool) : res (bool * list bytes) :=
  match ActiveTest_packet (cs_p s) q with
  | None => Ok (false, [])
  | Some e => b <- reply_with s e ;; if wok then Ok (false, [b]) else Ok (false, [])
  end.
(** session.go:263-274 HealthCheck with its heartbeat; times in nanoseconds. *)
Definition minute : Z := 60000000000.
Definition HealthCheck_beat (s : csess) (now q : Z) (wok : bool) : res (bool * list bytes) :=
  let ok := HealthCheck s in
  if ok && (cs_active s + minute <? now) then
    '(err, out) <- ActiveTest s q wok ;; Ok (if err then false else ok, out)
  else Ok (ok, []).

(** What is seen: a packet was received on session i, a message was sent through it (api.go:36, AddCounter,
    after the last packet or the failure), it was checked: the verdict and what was written. *)
Inductive bobs :=
| BGot (i : nat) (now : Z)
| BSent (i : nat) (now : Z)
| BVerdict (i : nat) (now : Z) (ok : bool) (out : list bytes).
Inductive bevent := BClient (e : cevent) | BCheck (i : nat) (now q : Z) (wok : bool).
Record bstate := BState { bt_c : cstate; bt_log : list bobs }.
(** What a step of the client shows here: on_traffic_cmpp.go:37, on_traffic_sgip.go:36,
    on_traffic_smgp.go:37 (a packet), api.go:36 (a send that has ended). *)
Definition seen (pr : cparams) (c : cstate) (e : cevent) : list bobs :=
  match e with
  | CGot i _ _ _ o => match nth_error (ct_sess c) i with Some _ => [BGot i (g_now o)] | None => [] end
  | CRecord t now =>
    match nth_error (ct_send c) t with
    | Some s => match sn_ph s with SWrote i _ _ _ [] _ => match nth_error (ct_sess c) i with Some _ => [BSent i now] | None => [] end | _ => [] end
    | None => []
    end
  | CWrite t false now =>
    match nth_error (ct_send c) t with
    | Some s => match sn_ph s with SPart i _ (_ :: _) _ => match nth_error (ct_sess c) i with Some _ => [BSent i now] | None => [] end | _ => [] end
    | None => []
    end
  | CPick t (Some i) d now =>
    match nth_error (ct_send c) t with
    | Some s =>
      match sn_ph s, sn_todo s, nth_error (ct_sess c) i with
      | SNext, phone :: _, Some ss =>
        if HealthCheck ss then
          match cs_ac ss with
          | Some ac => match segments (cs_p ss) (cp_gbe pr) ac phone (sn_msg s) (sn_ops s) d with Ok [] => [BSent i now] | _ => [] end
          | None => []
          end
        else []
      | _, _, _ => []
      end
    | None => []
    end
  | _ => []
  end.
Definition bstep (pr : cparams) (x : bstate) (e : bevent) : res bstate :=
  match e with
  | BClient e => c <- cstep pr (bt_c x) e ;; Ok (BState c (bt_log x ++ seen pr (bt_c x) e))
  | BCheck i now q wok =>
    match nth_error (ct_sess (bt_c x)) i with
    | Some s => '(ok, out) <- HealthCheck_beat s now q wok ;; Ok (BState (bt_c x) (bt_log x ++ [BVerdict i now ok out]))
    | None => Ok x
    end
  end.
Fixpoint brun (pr : cparams) (x : bstate) (es : list bevent) : res bstate :=
  match es with [] => Ok x | e :: r => x1 <- bstep pr x e ;; brun pr x1 r end.
(** A client with the given sessions, as NewSession leaves them (logged in at [cs_active]). *)
Definition bstart (l : list csess) : bstate := BState (cstart l) [].
