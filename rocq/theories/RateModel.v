(** * RateModel: the rate limiter of the server's sessions and of the client's factories.

    golang.org/x/time/rate v0.0.0-20191024005414 (not in the sandbox; modelled from its
    documentation and source as known): a bucket of at most [burst] tokens that gets one token per
    period; a call takes a token if there is one.  The library counts tokens in float64; here the
    bucket is counted in nanoseconds (tokens times period), which is exact: the rounding of float64
    is not modelled.  Times are nanoseconds. *)
From Verif Require Import Base OptionsModel FrameModel ServerModel.

(** rate.Limiter: [lm_ev] = the period (None: rate.Inf), [lm_last] = None: the zero time. *)
Record limiter := Lim { lm_ev : option Z; lm_burst : Z; lm_credit : Z; lm_last : option Z }.
(** rate.Every: an interval that is not positive gives Inf *)
Definition Every (ev : Z) : option Z := if ev <=? 0 then None else Some ev.
(** rate.NewLimiter *)
Definition NewLimiter (limit : option Z) (burst : Z) : limiter := Lim limit burst 0 None.
(** Limiter.advance: the time is not before [last]; the bucket never overflows. *)
Definition advance (l : limiter) (ev now : Z) : Z * Z :=
  match lm_last l with
  | None => (now, lm_burst l * ev)
  | Some t => let last := if now <? t then now else t in (last, Z.min (lm_burst l * ev) (lm_credit l + (now - last)))
  end.
(** Limiter.Allow = reserveN(now, 1, 0): a token is taken only if there is one; otherwise only
    [last] is kept. *)
Definition Allow (l : limiter) (now : Z) : bool * limiter :=
  match lm_ev l with
  | None => (true, l)
  | Some ev =>
    let '(last, credit) := advance l ev now in
    if (1 <=? lm_burst l) && (ev <=? credit) then (true, Lim (lm_ev l) (lm_burst l) (credit - ev) (Some now))
    else (false, Lim (lm_ev l) (lm_burst l) (lm_credit l) (match lm_last l with None => None | Some _ => Some last end))
  end.
(** Calls at the given times *)
Fixpoint calls (l : limiter) (ts : list Z) : list (Z * bool) * limiter :=
  match ts with
  | [] => ([], l)
  | t :: r => let '(b, l1) := Allow l t in let '(o, l2) := calls l1 r in ((t, b) :: o, l2)
  end.

(** msc_server/server/session.go:85-93: the period, in nanoseconds. Go's integer division truncates. *)
Definition server_period (throughput : Z) : Z := if throughput =? 0 then 10000000 else Z.quot 1000000 throughput * 1000.
(** session.go:94; the capacity of the window is ac.MtWindowSize (line 80) *)
Definition setupLimiter (ac : authconf) : limiter := NewLimiter (Every (server_period (ac_Throughput ac))) (ac_MtWindowSize ac).
(** msc_client/session_factory.go:127-135; the configured values max-conns, mt-window-size and
    throughput.  Line 120 tests maxConns where the window size is meant. *)
Definition client_window (maxConns winSize : Z) : res Z := if 0 <? maxConns then if winSize <? 0 then Panic else Ok winSize else Ok 16.
Definition client_period (throughput : Z) : Z := if 0 <? throughput then Z.quot 1000000 throughput * 1000 else 10000000.
Definition client_limiter (maxConns winSize throughput : Z) : res limiter :=
  w <- client_window maxConns winSize ;; Ok (NewLimiter (Every (client_period throughput)) w).

(** ** The server's connection with its limiter *)
Definition set_lim (o : orc) (b : bool) : orc :=
  Orc b (o_acc o) (o_acc2 o) (o_now o) (o_busy o) (o_norep o) (o_seq o) (o_nid o) (o_nrep o) (o_q o) (o_id o) (o_rid o) (o_t1 o) (o_t2 o) (o_t3 o) (o_sec o) (o_g o) (o_cnt o) (o_dly o) (o_gen o).
(** Whether a read event reaches submitFlowControl (on_traffic.go:109-111): a complete submit of a
    logged-in session that can be decoded. *)
Definition asks_limiter (pr : params) (seg : bytes) (c : sconn) : bool :=
  sc_open c &&
  match DecodeAndCheckHeader (pr_p pr) (pr_drain pr) (sc_buf c ++ seg) with
  | Ok (FPass k _) => (handler_cmd (pr_p pr) HSubmit =? pk_cmd k) && sessionCheck (sc_sess c) &&
                      match decode_submit pr (se_ver (sc_sess c)) k with Ok _ => se_res (sc_sess c) | _ => false end
  | _ => false
  end.
(** A step with the limiter in place of the oracle's answer: asked at the time of the event; a login
    that completes (CbLogin with code 0 on a written answer) makes a new one. *)
Definition new_login (c : sconn) : option authconf :=
  match sc_open c, sc_queue c with true, (_, _, CbLogin _ code (Some ac)) :: _ => if code =? 0 then Some ac else None | _, _ => None end.
Definition lstep (pr : params) (s : sconn * limiter) (e : event * orc) : res (sconn * limiter) :=
  let '(c, l) := s in
  let '(k, o) := e in
  match k with
  | ERecv seg =>
    let '(b, l1) := Allow l (o_now o) in
    c1 <- step pr c (ERecv seg, set_lim o b) ;; Ok (c1, if asks_limiter pr seg c then l1 else l)
  | EWrite => c1 <- step pr c e ;; Ok (c1, match new_login c with Some ac => setupLimiter ac | None => l end)
  | _ => c1 <- step pr c e ;; Ok (c1, l)
  end.
Fixpoint lrun (pr : params) (s : sconn * limiter) (es : list (event * orc)) : res (sconn * limiter) :=
  match es with [] => Ok s | e :: r => s1 <- lstep pr s e ;; lrun pr s1 r end.
