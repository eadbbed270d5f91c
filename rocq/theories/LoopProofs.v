(** * LoopProofs: lemmas about the event loop of LoopModel. *)
From Verif Require Import Base OptionsModel FrameModel SpecServer ServerModel ServerProofs PropServer PropWindow PropAnswers LoopModel.

(** ** Lists *)
Lemma nth_error_upd_same {A} (l : list A) i x y : nth_error l i = Some x -> nth_error (upd l i y) i = Some y.
Proof.
  intros N. assert (L : (i < length l)%nat) by (apply nth_error_Some; congruence). unfold upd. rewrite nth_error_app2 by (rewrite firstn_length; lia).
  rewrite firstn_length, Nat.min_l by lia. rewrite Nat.sub_diag. reflexivity.
Qed.
Lemma nth_error_upd_other {A} (l : list A) i j y : j <> i -> (i < length l)%nat -> nth_error (upd l i y) j = nth_error l j.
Proof.
  intros D L. unfold upd. destruct (Nat.lt_ge_cases j i) as [H|H].
  - rewrite nth_error_app1 by (rewrite firstn_length; lia). rewrite <- (firstn_skipn i l) at 2. rewrite nth_error_app1 by (rewrite firstn_length; lia). reflexivity.
  - rewrite nth_error_app2 by (rewrite firstn_length; lia). rewrite firstn_length, Nat.min_l by lia. destruct (j - i)%nat as [|m] eqn:M; [lia|].
    cbn [app nth_error]. rewrite <- (firstn_skipn (S i) l) at 2. rewrite nth_error_app2 by (rewrite firstn_length; lia). f_equal. rewrite firstn_length. lia.
Qed.
Lemma del_app {A} (l r : list A) i : (i < length l)%nat -> del (l ++ r) i = del l i ++ r.
Proof.
  intros L. unfold del. rewrite firstn_app, skipn_app. replace (i - length l)%nat with 0%nat by lia. replace (S i - length l)%nat with 0%nat by lia.
  cbn [firstn skipn]. rewrite app_nil_r, <- app_assoc. reflexivity.
Qed.
Lemma length_del {A} (l : list A) i : (i < length l)%nat -> length (del l i) = (length l - 1)%nat.
Proof. intros L. unfold del. rewrite app_length, firstn_length, skipn_length. lia. Qed.
Lemma Forall2_firstn {A B} (P : A -> B -> Prop) : forall n l r, Forall2 P l r -> Forall2 P (firstn n l) (firstn n r).
Proof. induction n as [|n IH]; intros l r H; cbn [firstn]; [constructor|]. destruct H; constructor; auto. Qed.
Lemma Forall2_skipn {A B} (P : A -> B -> Prop) : forall n l r, Forall2 P l r -> Forall2 P (skipn n l) (skipn n r).
Proof. induction n as [|n IH]; intros l r H; cbn [skipn]; [exact H|]. destruct H; [constructor|auto]. Qed.
Lemma Forall2_del {A B} (P : A -> B -> Prop) l r i : Forall2 P l r -> Forall2 P (del l i) (del r i).
Proof. intros H. unfold del. apply Forall2_app; [apply Forall2_firstn|apply Forall2_skipn]; exact H. Qed.
Lemma Forall2_upd {A B} (P : A -> B -> Prop) l r i x y : nth_error l i = Some x -> Forall2 P l r -> (forall b, P x b -> P y b) -> Forall2 P (upd l i y) r.
Proof.
  intros N H Y. revert i N. induction H as [|a b l r Hab H IH]; intros [|i] N; cbn [nth_error] in N; try discriminate.
  - injection N as ->. unfold upd. cbn [firstn skipn app]. constructor; auto.
  - unfold upd. cbn [firstn skipn app]. constructor; [exact Hab|]. exact (IH i N).
Qed.
Lemma Forall2_len {A B} (P : A -> B -> Prop) l r : Forall2 P l r -> length l = length r.
Proof. intros H. induction H; cbn [length]; congruence. Qed.
Lemma Forall2_mono {A B} (P Q : A -> B -> Prop) l r : Forall2 P l r -> (forall a b, P a b -> Q a b) -> Forall2 Q l r.
Proof. intros H M. induction H; constructor; auto. Qed.

(** ** What a read does depends on little of the connection *)
Definition add (c : sconn) (js : list task) (ls : list obs) : sconn :=
  SConn (sc_buf c) (sc_open c) (sc_sess c) (sc_chans c) (sc_tasks c ++ js) (sc_queue c) (sc_wish c) (sc_log c ++ ls).
Definition looks (st : sstat) (v : Z) (r : bool) (c : sconn) : Prop := se_stat (sc_sess c) = st /\ se_ver (sc_sess c) = v /\ se_res (sc_sess c) = r.
Definition job_for (j : job) : bool := match j with JLogin _ _ | JForce | JHeart | JDly _ => false | _ => true end.
Definition effect (c : sconn) (r : res (action * list task * list obs)) : res (action * sconn) :=
  match r with Ok (a, js, ls) => Ok (a, add c js ls) | Err e => Err e | Panic => Panic end.
Lemma add_nil c : add c [] [] = c. Proof. destruct c. unfold add. cbn. rewrite !app_nil_r. reflexivity. Qed.
Lemma add_got c k : note c (OGot k) = add c [] [OGot k]. Proof. unfold add, note. rewrite app_nil_r. reflexivity. Qed.
Lemma add_job c k b j : spawn (note (note c (OGot k)) (OServe k b)) j = add c [(j, PStart)] [OGot k; OServe k b].
Proof. unfold add, spawn, with_tasks, note. cbn [sc_buf sc_open sc_sess sc_chans sc_tasks sc_queue sc_wish sc_log]. rewrite <- app_assoc. reflexivity. Qed.
Lemma add_login c k j : spawn (note c (OGot k)) j = add c [(j, PStart)] [OGot k].
Proof. reflexivity. Qed.
Lemma add_serve c k b : note (note c (OGot k)) (OServe k b) = add c [] [OGot k; OServe k b].
Proof. unfold add, note. cbn [sc_buf sc_open sc_sess sc_chans sc_tasks sc_queue sc_wish sc_log]. rewrite <- app_assoc, app_nil_r. reflexivity. Qed.
Lemma act_effect pr o h k st v rs : exists r, forall c, looks st v rs c -> act pr o h k c = effect c r.
Proof.
  assert (X : exists r, forall c, looks st v rs c ->
    (if negb (sessionCheck (sc_sess c)) then Ok (AClose, note c (OGot k))
     else match decode_other (pr_p pr) h k with
          | Err _ => Ok (AClose, note c (OGot k)) | Panic => Panic
          | Ok j => if negb (se_res (sc_sess c)) then Panic
                    else if o_acc o then Ok (ANone, spawn (note (note c (OGot k)) (OServe k false)) j) else Ok (AClose, note c (OGot k)) end) = effect c r).
  { exists (if negb (match st with StatLogin => true | _ => false end) then Ok (AClose, [], [OGot k])
            else match decode_other (pr_p pr) h k with
                 | Err _ => Ok (AClose, [], [OGot k]) | Panic => Panic
                 | Ok j => if negb rs then Panic else if o_acc o then Ok (ANone, [(j, PStart)], [OGot k; OServe k false]) else Ok (AClose, [], [OGot k]) end).
    intros c (<- & <- & <-). unfold sessionCheck. destruct (se_stat (sc_sess c)); cbn [negb]; try (rewrite add_got; reflexivity).
    destruct (decode_other _ _ _); try (rewrite add_got; reflexivity); [|reflexivity]. destruct (se_res _); cbn [negb]; [|reflexivity].
    destruct (o_acc o); [rewrite add_job; reflexivity|rewrite add_got; reflexivity]. }
  destruct h; try exact X.
  - exists (if negb (match st with StatLogin => true | _ => false end) then Ok (AClose, [], [OGot k])
            else match decode_submit pr v k with
                 | Err _ => Ok (AClose, [], [OGot k]) | Panic => Panic
                 | Ok r => if negb rs then Panic
                           else if negb (o_lim o) then Ok (ANone, if o_acc o then [(JFlow k r, PStart)] else [], [OGot k; OServe k true])
                           else if o_acc o then Ok (ANone, [(JSubmit k r, PStart)], [OGot k; OServe k false]) else Ok (AClose, [], [OGot k]) end).
    intros c (<- & <- & <-). unfold act. cbv zeta. change (sc_sess (note c (OGot k))) with (sc_sess c). unfold sessionCheck. destruct (se_stat (sc_sess c)); cbn [negb]; try (rewrite add_got; reflexivity).
    destruct (decode_submit _ _ _); try (rewrite add_got; reflexivity); [|reflexivity]. destruct (se_res _); cbn [negb]; [|reflexivity].
    destruct (o_lim o); cbn [negb]; destruct (o_acc o); rewrite ?add_job, ?add_serve, ?add_got; reflexivity.
  - exists (match decode_login (pr_p pr) k with
            | Ok l => if o_acc o then Ok (ANone, [(JLogin k l, PStart)], [OGot k]) else Ok (AClose, [], [OGot k])
            | Err _ => Ok (AClose, [], [OGot k]) | Panic => Panic end).
    intros c _. unfold act. cbv zeta. destruct (decode_login _ _); try (rewrite add_got; reflexivity); [|reflexivity].
    destruct (o_acc o); [|rewrite add_got; reflexivity]. reflexivity.
Qed.
Lemma chain_effect pr o k st v rs : forall hs, exists r, forall c, looks st v rs c -> ExecuteChain (pr_p pr) (act pr o) hs k c = effect c r.
Proof.
  induction hs as [|h hs (r & IH)].
  - exists (Ok (ANone, [], [])). intros c _. cbn [ExecuteChain effect]. rewrite add_nil. reflexivity.
  - destruct (act_effect pr o h k st v rs) as (ra & A). exists (if handler_cmd (pr_p pr) h =? pk_cmd k then ra else r). intros c L. cbn [ExecuteChain]. unfold handler.
    destruct (handler_cmd (pr_p pr) h =? pk_cmd k); cbn [negb bind].
    + rewrite (A c L). destruct ra as [[[a js] ls]| |]; reflexivity.
    + apply IH. exact L.
Qed.
(** the outcome of a read, for all connections with the same buffer and looks *)
Definition read_to (c : sconn) (r : res (bytes * action * list task * list obs)) : res sconn :=
  match r with Ok (b, a, js, ls) => Ok (closing a (with_buf (add c js ls) b)) | Err e => Err e | Panic => Panic end.
Lemma recv_effect pr o seg buf st v rs : exists r, forall c, sc_open c = true -> sc_buf c = buf -> looks st v rs c -> on_recv pr o seg c = read_to c r.
Proof.
  destruct (DecodeAndCheckHeader (pr_p pr) (pr_drain pr) (buf ++ seg)) as [fo| |] eqn:F.
  - destruct fo as [| |k rest].
    + exists (Ok (buf ++ seg, ANone, [], [])). intros c O <- L. unfold on_recv. rewrite O. unfold OnTraffic. rewrite F. cbn [bind read_to closing]. rewrite add_nil. reflexivity.
    + exists (Ok (buf ++ seg, AClose, [], [])). intros c O <- L. unfold on_recv. rewrite O. unfold OnTraffic. rewrite F. cbn [bind read_to closing]. rewrite add_nil. reflexivity.
    + destruct (chain_effect pr o k st v rs (handlers (pr_p pr))) as (r & R).
      exists (match r with Ok (a, js, ls) => Ok (rest, a, js, ls) | Err e => Err e | Panic => Panic end).
      intros c O <- L. unfold on_recv. rewrite O. unfold OnTraffic. rewrite F. cbn [negb bind]. rewrite (R c L). destruct r as [[[a js] ls]| |]; cbn [effect bind read_to closing]; try reflexivity.
      destruct a; reflexivity.
  - exists (Err e). intros c O <- L. unfold on_recv. rewrite O. unfold OnTraffic. rewrite F. reflexivity.
  - exists Panic. intros c O <- L. unfold on_recv. rewrite O. unfold OnTraffic. rewrite F. reflexivity.
Qed.
Lemma close_tasks c : sc_tasks (OnClose c) = sc_tasks c.
Proof. unfold OnClose. destruct (sc_open c); reflexivity. Qed.
Lemma closing_tasks a c : sc_tasks (closing a c) = sc_tasks c.
Proof. destruct a; [reflexivity|apply close_tasks]. Qed.
Lemma skipn_length_app {A} (l r : list A) : skipn (length l) (l ++ r) = r.
Proof. rewrite skipn_app, skipn_all, Nat.sub_diag. reflexivity. Qed.
(** Whether a read starts a goroutine in the session's pool, and what it does, does not change while
    the connection's goroutines and the ticker run: handling it when Submit returns is as good as
    handling it before. *)
Definition like (c d : sconn) : Prop := sc_open d = sc_open c /\ sc_buf d = sc_buf c /\ looks (se_stat (sc_sess c)) (se_ver (sc_sess c)) (se_res (sc_sess c)) d.
Lemma recv_like pr o seg c d c' : like c d -> on_recv pr o seg c = Ok c' -> exists d', on_recv pr o seg d = Ok d' /\
  skipn (length (sc_tasks d)) (sc_tasks d') = skipn (length (sc_tasks c)) (sc_tasks c').
Proof.
  intros (O & B & L) E. destruct (sc_open c) eqn:OC.
  - destruct (recv_effect pr o seg (sc_buf c) (se_stat (sc_sess c)) (se_ver (sc_sess c)) (se_res (sc_sess c))) as (r & R).
    rewrite (R c OC eq_refl) in E by (repeat split). rewrite (R d O B L). destruct r as [[[[b a] js] ls]| |]; try discriminate. cbn [read_to] in *. injection E as <-.
    eexists. split; [reflexivity|]. rewrite !closing_tasks. cbn [with_buf add sc_tasks]. rewrite !skipn_length_app. reflexivity.
  - unfold on_recv in *. rewrite OC in E. injection E as <-. rewrite O. cbn [negb]. exists d. split; [reflexivity|]. rewrite !skipn_all. reflexivity.
Qed.
Lemma to_pool_like pr o seg c d : like c d -> to_pool pr o seg c = true -> to_pool pr o seg d = true.
Proof.
  intros L. unfold to_pool. destruct (on_recv pr (granted o) seg c) as [c'| |] eqn:E; try discriminate.
  destruct (recv_like _ _ _ _ _ _ L E) as (d' & -> & ->). auto.
Qed.
Lemma same_ver s s' : same_sess s s' -> se_ver s' = se_ver s.
Proof. intros H. unfold same_sess in H. tauto. Qed.
Lemma task_like pr o i c : like c (on_task pr o i c).
Proof.
  destruct (nth_error (sc_tasks c) i) as [[j q]|] eqn:N; [|unfold on_task; rewrite N; repeat split].
  destruct (on_task_step pr o i c j q N) as [W1 F1|Ej|it W1 I1 C1|g W1 Q|W1 Q S|W1 Q|k r it code a Ej Eq I1 C1 Ec Ek Ea|s' its w W1 Eq Nj SS It Wi|its a k Eq W1 It|g W1 Q|W1 Q];
    try (repeat split; fail); try (unfold try_send, try_recv; repeat match goal with |- context [if ?b then _ else _] => destruct b end; repeat split; fail).
  destruct (same_win _ _ SS) as (S1 & _ & _ & S2 & _). pose proof (same_ver _ _ SS). repeat split; cbn [sc_sess]; congruence.
Qed.
Lemma tick_like pr o c : like c (on_tick pr o c).
Proof.
  unfold on_tick. destruct (negb _); [repeat split|]. destruct (_ || _); [destruct (o_acc o); repeat split|]. destruct (se_stat (sc_sess c)) eqn:E; try (repeat split; rewrite ?E; auto; fail).
  destruct (o_dly o); [destruct (o_acc2 o)|]; destruct (o_acc o); repeat split; rewrite ?E; auto.
Qed.
Lemma like_refl c : like c c. Proof. repeat split. Qed.
Lemma like_trans a b c : like a b -> like b c -> like a c.
Proof. intros (A & B & C1 & C2 & C3) (D & E & F1 & F2 & F3). repeat split; congruence. Qed.

(** ** Frames *)
Definition caps (c : sconn) : list Z := map ch_cap (sc_chans c).
Lemma cap_caps c g : ch_cap (get_chan c g) = nth g (caps c) 0.
Proof. unfold get_chan, caps. rewrite <- (map_nth ch_cap). reflexivity. Qed.
Lemma caps_upd c g x : ch_cap x = ch_cap (get_chan c g) -> (g < length (sc_chans c))%nat -> caps (set_chan c g x) = caps c.
Proof.
  intros E L. unfold caps, set_chan, with_chans, upd. cbn [sc_chans]. rewrite !map_app. cbn [map]. rewrite E. unfold get_chan.
  rewrite (split_nth (sc_chans c) g (nth g (sc_chans c) no_chan)) at 4 by (apply nth_error_nth'; exact L). rewrite !map_app. reflexivity.
Qed.
Lemma caps_resource c : chans_ok c -> caps (closeResource c) = caps c.
Proof.
  intros H. unfold closeResource. cbv zeta. destruct (se_win (sc_sess c)) as [g|] eqn:W; [|reflexivity].
  pose proof (caps_upd c g (Chan (ch_cap (get_chan c g)) (ch_len (get_chan c g)) true) eq_refl) as E. unfold caps in *. cbn [with_chans set_chan sc_chans] in *. apply E.
  destruct H as (_ & _ & H & _). apply H. exact W.
Qed.
Lemma caps_close c : chans_ok c -> caps (OnClose c) = caps c.
Proof. intros H. unfold OnClose. destruct (sc_open c); [exact (caps_resource c H)|reflexivity]. Qed.
Lemma caps_closing a c : chans_ok c -> caps (closing a c) = caps c.
Proof. intros H. destruct a; [reflexivity|apply caps_close; exact H]. Qed.
(** the sizes of the windows made by the logins of a log *)
Definition sizes (l : list obs) : list Z := flat_map (fun o => match o with OLogin _ a => [ac_MtWindowSize a] | _ => [] end) l.
Lemma sizes_app l r : sizes (l ++ r) = sizes l ++ sizes r.
Proof. apply flat_map_app. Qed.
Definition plain_obs (ls : list obs) : Prop := sizes ls = [] /\ forall l, last_login (l ++ ls) = last_login l.
Lemma plain_cons o ls : is_login o = false -> plain_obs ls -> plain_obs (o :: ls).
Proof.
  intros N (A & B). split; [destruct o; try discriminate N; exact A|]. intros l. replace (l ++ o :: ls) with ((l ++ [o]) ++ ls) by (rewrite <- app_assoc; reflexivity).
  rewrite B, last_snoc. destruct o; try discriminate N; reflexivity.
Qed.
Lemma plain_nil : plain_obs []. Proof. split; [reflexivity|]. intros l. rewrite app_nil_r. reflexivity. Qed.

Lemma step_recv pr o seg c c' : chans_ok c -> on_recv pr o seg c = Ok c' ->
  exists js ls, sc_tasks c' = sc_tasks c ++ js /\ (length js <= 1)%nat /\ sc_log c' = sc_log c ++ ls /\ plain_obs ls /\ caps c' = caps c /\
    (se_win (sc_sess c') = se_win (sc_sess c) \/ se_win (sc_sess c') = None).
Proof.
  intros CK E. apply on_recv_step in E.
  assert (CW : forall x, se_win (sc_sess (OnClose x)) = se_win (sc_sess x) \/ se_win (sc_sess (OnClose x)) = None)
    by (intros x; unfold OnClose; destruct (sc_open x); [right; reflexivity|left; reflexivity]).
  assert (CL : forall x, exists ls, sc_log (OnClose x) = sc_log x ++ ls /\ plain_obs ls).
  { intros x. unfold OnClose. destruct (sc_open x); cbn [negb]; [exists [OClose]; split; [reflexivity|apply plain_cons; [reflexivity|apply plain_nil]]|exists []; split; [rewrite app_nil_r; reflexivity|apply plain_nil]]. }
  destruct E as [O1|O1 F|O1 F|k rest O1 F N|k rest h a c1 O1 F Hin Hc HA];
    try (exists [], []; rewrite !app_nil_r; cbn [length with_buf sc_tasks sc_log sc_sess]; split; [reflexivity|]; split; [lia|]; split; [reflexivity|]; split; [apply plain_nil|]; split; [reflexivity|left; reflexivity]; fail).
  - destruct (CL (with_buf c (sc_buf c ++ seg))) as (ls & L1 & L2). exists [], ls. rewrite close_tasks, L1, app_nil_r. split; [reflexivity|]. split; [cbn; lia|]. split; [reflexivity|]. split; [exact L2|].
    split; [exact (caps_close (with_buf c (sc_buf c ++ seg)) CK)|]. exact (CW (with_buf c (sc_buf c ++ seg))).
  - assert (X : exists js ls, c1 = add c js ls /\ (js = [] \/ exists j, js = [(j, PStart)]) /\ plain_obs ls).
    { inversion HA; subst; rewrite ?add_job, ?add_serve, ?add_login, ?add_got; eexists; eexists; (split; [reflexivity|split; [eauto|]]);
        repeat (apply plain_cons; [reflexivity|]); apply plain_nil. }
    destruct X as (js & ls & -> & Js & P). assert (Lj : (length js <= 1)%nat) by (destruct Js as [->|(j & ->)]; cbn; lia).
    assert (CK' : chans_ok (with_buf (add c js ls) rest)).
    { destruct CK as (K1 & K2 & K3 & K4). split; [exact K1|]. split; [|split; [exact K3|exact K4]]. cbn [with_buf add sc_tasks]. intros t g Ht Q. apply in_app_or in Ht as [Ht|Ht]; [eapply K2; eauto|].
      destruct Js as [->|(j & ->)]; [destruct Ht|]. destruct Ht as [<-|[]]. cbn in Q. destruct Q; discriminate. }
    destruct a; cbn [closing].
    + exists js, ls. split; [reflexivity|]. split; [exact Lj|]. split; [reflexivity|]. split; [exact P|]. split; [reflexivity|left; reflexivity].
    + destruct (CL (with_buf (add c js ls) rest)) as (l2 & L1 & L2). exists js, (ls ++ l2). rewrite close_tasks, L1. cbn [with_buf add sc_tasks sc_log]. split; [reflexivity|]. split; [exact Lj|].
      split; [rewrite app_assoc; reflexivity|]. split.
      * split; [rewrite sizes_app; destruct P as (-> & _), L2 as (-> & _); reflexivity|]. intros l. rewrite app_assoc. destruct P as (_ & P), L2 as (_ & L2). rewrite L2, P. reflexivity.
      * split; [exact (caps_close _ CK')|]. destruct (CW (with_buf (add c js ls) rest)) as [W|W]; [left|right]; exact W.
Qed.
Lemma step_task pr o i c : chans_ok c ->
  caps (on_task pr o i c) = caps c /\ se_win (sc_sess (on_task pr o i c)) = se_win (sc_sess c) /\
  (sc_tasks (on_task pr o i c) = sc_tasks c \/
   exists j q, nth_error (sc_tasks c) i = Some (j, q) /\
     (sc_tasks (on_task pr o i c) = del (sc_tasks c) i \/ exists q', sc_tasks (on_task pr o i c) = upd (sc_tasks c) i (j, q'))).
Proof.
  intros (K1 & K2 & K3 & K4). destruct (nth_error (sc_tasks c) i) as [[j q]|] eqn:N; [|unfold on_task; rewrite N; auto].
  assert (G : forall g, (is_win j = true -> (q = PStart \/ q = PRelease) /\ se_win (sc_sess c) = Some g \/ q = PSend g \/ q = PRecv g) -> is_win j = true -> (g < length (sc_chans c))%nat).
  { intros g H W. destruct (H W) as [[_ H']|H']; [apply K3; exact H'|]. apply (K2 (j, q)); [eapply nth_error_In; eauto|exact H']. }
  destruct (on_task_step pr o i c j q N) as [W1 F1|Ej|it W1 I1 C1|g W1 Q|W1 Q S|W1 Q|k r it code a Ej Eq I1 C1 Ec Ek Ea|s' its w W1 Eq Nj SS It Wi|its a k Eq W1 It|g W1 Q|W1 Q];
    try (split; [reflexivity|]; split; [reflexivity|]; first [left; reflexivity|right; exists j, q; split; [reflexivity|]; first [left; reflexivity|right; eexists; reflexivity]]; fail).
  - assert (L : (g < length (sc_chans c))%nat) by (apply G; auto; intros _; destruct Q as [[-> Q]|Q]; auto). unfold try_send.
    destruct (ch_closed _); [|destruct (_ <? _)]; cbn zeta; try (split; [reflexivity|]; split; [reflexivity|]; right; exists j, q; split; [reflexivity|]; first [left; reflexivity|right; eexists; reflexivity]; fail).
    split; [|split; [reflexivity|right; exists j, q; split; [reflexivity|]; right; eexists; reflexivity]].
    exact (caps_upd c g (plus (get_chan c g) 1) eq_refl L).
  - destruct (same_win _ _ SS) as (_ & _ & S2 & _). split; [reflexivity|]. split; [exact S2|]. right. exists j, q. split; [reflexivity|]. right. eexists. reflexivity.
  - assert (L : (g < length (sc_chans c))%nat) by (apply G; auto; intros _; destruct Q as [[-> Q]|Q]; auto). unfold try_recv.
    destruct (_ <? _); [|destruct (ch_closed _)]; cbn zeta; try (split; [reflexivity|]; split; [reflexivity|]; right; exists j, q; split; [reflexivity|]; first [left; reflexivity|right; eexists; reflexivity]; fail).
    split; [|split; [reflexivity|right; exists j, q; split; [reflexivity|]; left; reflexivity]].
    exact (caps_upd c g (plus (get_chan c g) (-1)) eq_refl L).
Qed.
Lemma step_tick pr o c : exists js, on_tick pr o c = with_tasks c (sc_tasks c ++ js) /\ forall t, In t js -> job_for (fst t) = false /\ is_win (fst t) = false.
Proof.
  assert (NIL : exists js, c = with_tasks c (sc_tasks c ++ js) /\ forall t, In t js -> job_for (fst t) = false /\ is_win (fst t) = false).
  { exists []. rewrite app_nil_r. split; [destruct c; reflexivity|]. intros t []. }
  assert (ONE : forall j, job_for j = false -> is_win j = false -> exists js, spawn c j = with_tasks c (sc_tasks c ++ js) /\ forall t, In t js -> job_for (fst t) = false /\ is_win (fst t) = false).
  { intros j J1 J2. exists [(j, PStart)]. split; [reflexivity|]. intros t [<-|[]]. auto. }
  unfold on_tick. destruct (negb _); [exact NIL|]. destruct (_ || _); [destruct (o_acc o); [apply ONE; reflexivity|exact NIL]|].
  destruct (se_stat (sc_sess c)); try exact NIL. destruct (o_dly o) as [b|]; [|destruct (o_acc o); [apply ONE; reflexivity|exact NIL]].
  destruct (o_acc2 o); [|destruct (o_acc o); [apply ONE; reflexivity|exact NIL]]. destruct (o_acc o); [|apply ONE; reflexivity].
  exists [(JHeart, PStart); (JDly b, PStart)]. split; [unfold spawn, with_tasks; cbn [sc_buf sc_open sc_sess sc_chans sc_tasks sc_queue sc_wish sc_log]; rewrite <- app_assoc; reflexivity|].
  intros t [<-|[<-|[]]]; split; reflexivity.
Qed.
Lemma step_write o c c' : chans_ok c -> on_write o c = Ok c' -> sc_tasks c' = sc_tasks c /\
  ((exists ls, sc_log c' = sc_log c ++ ls /\ plain_obs ls) /\ caps c' = caps c /\ se_win (sc_sess c') = se_win (sc_sess c) \/
   exists kd b k a, sc_log c' = sc_log c ++ [OOut kd b; OLogin k a] /\ caps c' = caps c ++ [ac_MtWindowSize a] /\ 0 <= ac_MtWindowSize a /\ se_win (sc_sess c') = Some (length (sc_chans c))).
Proof.
  intros CK E. unfold on_write in E.
  assert (NIL : c' = c -> sc_tasks c' = sc_tasks c /\ ((exists ls, sc_log c' = sc_log c ++ ls /\ plain_obs ls) /\ caps c' = caps c /\ se_win (sc_sess c') = se_win (sc_sess c))).
  { intros ->. split; [reflexivity|]. split; [|auto]. exists []. rewrite app_nil_r. split; [reflexivity|apply plain_nil]. }
  destruct (sc_open c) eqn:O; [|injection E as <-; destruct (NIL eq_refl); auto]. destruct (sc_queue c) as [|[[kd b] f] r]; [injection E as <-; destruct (NIL eq_refl); auto|].
  assert (P : plain_obs [OOut kd b]) by (apply plain_cons; [reflexivity|apply plain_nil]).
  destruct f; cbn [callback] in E; try (injection E as <-; split; [reflexivity|]; left; split; [exists [OOut kd b]; split; [reflexivity|exact P]|split; reflexivity]).
  - destruct ac as [ac|]; destruct (code =? 0); try discriminate;
      try (injection E as <-; split; [reflexivity|]; left; split; [exists [OOut kd b]; split; [reflexivity|exact P]|split; reflexivity]).
    apply bind_ok in E as (c2 & E2 & E). injection E as <-. unfold completeLogin in E2. destruct (_ <? 0) eqn:WN; [discriminate|]. injection E2 as <-. split; [reflexivity|].
    right. exists kd, b, k, ac. split; [cbn; rewrite <- app_assoc; reflexivity|]. split.
    + unfold caps. cbn [note with_chans with_sess sc_chans]. rewrite map_app. f_equal. exact (caps_resource c CK).
    + split; [lia|]. assert (HC := caps_resource c CK). apply (f_equal (@length Z)) in HC. unfold caps in HC. rewrite !map_length in HC. rewrite <- HC. reflexivity.
  - destruct (code =? 0); injection E as <-; (split; [reflexivity|]; left; split; [exists [OOut kd b]; split; [reflexivity|exact P]|split; reflexivity]).
Qed.
(** Every login made one window; the session's is the last. *)
Definition sized (c : sconn) : Prop :=
  chans_ok c /\ caps c = sizes (sc_log c) /\ (forall g, se_win (sc_sess c) = Some g -> S g = length (sc_chans c) /\ exists a, last_login (sc_log c) = Some a /\ nth g (caps c) 0 = ac_MtWindowSize a).
Lemma caps_len c : length (caps c) = length (sc_chans c). Proof. apply map_length. Qed.
Lemma sized_step pr c e c' : sized c -> step pr c e = Ok c' -> sized c'.
Proof.
  intros (CK & S1 & S2) E. split; [eapply ch_step; eauto|].
  assert (KEEP : forall ls, sc_log c' = sc_log c ++ ls -> plain_obs ls -> caps c' = caps c -> se_win (sc_sess c') = se_win (sc_sess c) \/ se_win (sc_sess c') = None ->
    caps c' = sizes (sc_log c') /\ forall g, se_win (sc_sess c') = Some g -> S g = length (sc_chans c') /\ exists a, last_login (sc_log c') = Some a /\ nth g (caps c') 0 = ac_MtWindowSize a).
  { intros ls L (P1 & P2) C W. split; [rewrite L, sizes_app, P1, app_nil_r; congruence|]. intros g G. destruct W as [W|W]; [|congruence]. rewrite W in G. destruct (S2 g G) as (A & a & B & D).
    rewrite <- caps_len, C, caps_len. split; [exact A|]. exists a. rewrite L, P2. auto. }
  assert (KEEP0 : sc_log c' = sc_log c -> caps c' = caps c -> se_win (sc_sess c') = se_win (sc_sess c) ->
    caps c' = sizes (sc_log c') /\ forall g, se_win (sc_sess c') = Some g -> S g = length (sc_chans c') /\ exists a, last_login (sc_log c') = Some a /\ nth g (caps c') 0 = ac_MtWindowSize a).
  { intros L C W. apply (KEEP []); [rewrite app_nil_r; exact L|apply plain_nil|exact C|left; exact W]. }
  destruct e as [[seg|i| | |] o]; cbn [step] in E.
  - destruct (step_recv pr o seg c c' CK E) as (js & ls & _ & _ & L & P & C & W). exact (KEEP ls L P C W).
  - injection E as <-. destruct (step_task pr o i c CK) as (A & B & _). apply KEEP0; auto. apply task_log.
  - destruct (step_write o c c' CK E) as (_ & [((ls & L & P) & C & W)|(kd & b & k & a & L & C & _ & W)]); [exact (KEEP ls L P C (or_introl W))|].
    rewrite L, C, W, sizes_app. split; [cbn; rewrite S1; reflexivity|]. intros g G. injection G as <-. rewrite <- (caps_len c'), C, app_length, caps_len. cbn [length]. split; [lia|].
    exists a. split; [unfold last_login; rewrite fold_left_app; reflexivity|]. rewrite app_nth2 by (rewrite caps_len; lia). rewrite caps_len, Nat.sub_diag. reflexivity.
  - injection E as <-. destruct (step_tick pr o c) as (js & TK & _). apply KEEP0; rewrite TK; reflexivity.
  - injection E as <-. unfold OnClose. destruct (sc_open c) eqn:O; cbn [negb]; [|auto]. pose proof (caps_close c CK) as C. unfold OnClose in C. rewrite O in C. cbn [negb] in C.
    unfold OnClose in KEEP. rewrite O in KEEP. cbn [negb] in KEEP. apply (KEEP [OClose]); [reflexivity|apply plain_cons; [reflexivity|apply plain_nil]|exact C|right; reflexivity].
Qed.
Lemma sized_run pr es : forall c c', sized c -> run pr c es = Ok c' -> sized c'.
Proof.
  induction es as [|e es IH]; intros c c' H E; cbn [run] in E; [congruence|]. apply bind_ok in E as (c1 & E1 & E2). eapply IH; [|exact E2]. eapply sized_step; eauto.
Qed.
Lemma sized_opened now : sized (opened now).
Proof. split; [apply ch_opened|]. split; [reflexivity|]. intros g G. discriminate. Qed.

(** ** The pools *)
Definition placed (n : nat) (t : task) (p : option nat) : Prop :=
  match p with Some g => (g < n)%nat /\ job_for (fst t) = true | None => job_for (fst t) = false end.
Definition fit (x : lconn) : Prop :=
  Forall2 (placed (length (sc_chans (lc_c x)))) (sc_tasks (lc_c x)) (lc_in x) /\
  forall g, 0 < ch_cap (get_chan (lc_c x) g) -> running g (lc_in x) <= pool_size (lc_c x) g.
Lemma running_app g l r : running g (l ++ r) = running g l + running g r.
Proof. unfold running. rewrite filter_app. unfold zlen. rewrite app_length. lia. Qed.
Lemma running_nonneg g l : 0 <= running g l. Proof. unfold running, zlen. lia. Qed.
Lemma running_one g p : running g [p] = if in_pool g p then 1 else 0.
Proof. unfold running. cbn [filter]. destruct (in_pool g p); reflexivity. Qed.
Lemma running_none g n : running g (repeat None n) = 0.
Proof. unfold running. induction n as [|n IH]; [reflexivity|exact IH]. Qed.
Lemma running_del g l i : running g (del l i) <= running g l.
Proof.
  unfold del. rewrite running_app. rewrite <- (firstn_skipn i l) at 3. rewrite running_app.
  destruct (skipn i l) as [|p r] eqn:E; [rewrite (skipn_all2 l) by (apply (f_equal (@length _)) in E; rewrite skipn_length in E; cbn in E; lia); lia|].
  assert (X : skipn (S i) l = r) by (clear -E; revert l E; induction i as [|i IH]; intros [|a l] E; cbn in *; try discriminate; [congruence|apply IH; exact E]).
  rewrite X. change (p :: r) with ([p] ++ r). rewrite running_app. pose proof (running_nonneg g [p]). lia.
Qed.
Lemma running_fresh g l n : (forall p, In p l -> match p with Some h => (h < n)%nat | None => True end) -> (n <= g)%nat -> running g l = 0.
Proof.
  intros H L. unfold running. induction l as [|p l IH]; [reflexivity|]. cbn [filter]. replace (in_pool g p) with false; [apply IH; intros q Hq; apply H; right; exact Hq|].
  specialize (H p (or_introl eq_refl)). destruct p as [h|]; [|reflexivity]. cbn. symmetry. apply Nat.eqb_neq. lia.
Qed.
Lemma placed_in n ts l : Forall2 (placed n) ts l -> forall p, In p l -> match p with Some h => (h < n)%nat | None => True end.
Proof. intros H. induction H as [|t p ts l Hp H IH]; [intros q []|]. intros q [<-|Hq]; [destruct p; [apply Hp|exact I]|exact (IH q Hq)]. Qed.
Lemma placed_repeat n p js : (forall t, In t js -> placed n t p) -> Forall2 (placed n) js (repeat p (length js)).
Proof. induction js as [|t js IH]; intros H; cbn [length repeat]; constructor; [apply H; left; reflexivity|]. apply IH. intros u Hu. apply H. right. exact Hu. Qed.
(** the same pools, a different state of the connection *)
Lemma fit_grown x c' p js : fit x -> sc_tasks c' = sc_tasks (lc_c x) ++ js -> caps c' = caps (lc_c x) ->
  match p with
  | Some g => (length js <= 1)%nat /\ (g < length (sc_chans (lc_c x)))%nat /\ ((pool_size (lc_c x) g <=? 0) || (running g (lc_in x) <? pool_size (lc_c x) g)) = true /\ forall t, In t js -> job_for (fst t) = true
  | None => forall t, In t js -> job_for (fst t) = false
  end -> fit (grown x c' p).
Proof.
  intros (F1 & F2) T C P. unfold grown, fit. cbn [lc_c lc_in]. rewrite T, app_length.
  replace (length (sc_tasks (lc_c x)) + length js - length (sc_tasks (lc_c x)))%nat with (length js) by lia.
  assert (LC : length (sc_chans c') = length (sc_chans (lc_c x))) by (rewrite <- !caps_len, C; reflexivity). rewrite LC. split.
  - apply Forall2_app; [exact F1|]. destruct p as [g|].
    + destruct P as (_ & G & _ & P). apply placed_repeat. intros t Ht. split; [exact G|]. apply P. exact Ht.
    + apply placed_repeat. exact P.
  - intros g G. assert (PS : pool_size c' g = pool_size (lc_c x) g) by (unfold pool_size; rewrite !cap_caps, C; reflexivity). rewrite PS. rewrite cap_caps, C, <- cap_caps in G. specialize (F2 g G). rewrite running_app. destruct p as [h|].
    + destruct P as (L & _ & R & _). destruct js as [|t [|u js]]; cbn [length] in L; try lia; cbn [length repeat]; [change (running g []) with 0; lia|]. rewrite running_one. cbn [in_pool]. destruct (Nat.eqb h g) eqn:Q; [|lia].
      apply Nat.eqb_eq in Q as ->. apply orb_prop in R as [R|R]; [unfold pool_size in *; lia|lia].
    + rewrite running_none. lia.
Qed.

Lemma fit_task pr o t x : chans_ok (lc_c x) -> fit x ->
  fit (LConn (on_task pr o t (lc_c x)) (if (length (sc_tasks (on_task pr o t (lc_c x))) <? length (sc_tasks (lc_c x)))%nat then del (lc_in x) t else lc_in x)).
Proof.
  intros CK (F1 & F2). destruct (step_task pr o t (lc_c x) CK) as (C & _ & T). set (c' := on_task pr o t (lc_c x)) in *. clearbody c'.
  assert (LC : length (sc_chans c') = length (sc_chans (lc_c x))) by (rewrite <- !caps_len, C; reflexivity). unfold fit. cbn [lc_c lc_in]. rewrite LC.
  assert (PS : forall g, 0 < ch_cap (get_chan c' g) -> forall l, running g l <= running g (lc_in x) -> running g l <= pool_size c' g).
  { intros g G l L. unfold pool_size. rewrite cap_caps, C, <- cap_caps in *. specialize (F2 g G). unfold pool_size in F2. lia. }
  destruct T as [T|(j & q & N & [T|(q' & T)])].
  - rewrite T, Nat.ltb_irrefl. split; [exact F1|]. intros g G. apply (PS g G). lia.
  - assert (L : (t < length (sc_tasks (lc_c x)))%nat) by (apply nth_error_Some; congruence). rewrite T, length_del by exact L.
    replace (_ <? _)%nat with true by (symmetry; apply Nat.ltb_lt; lia). split; [apply Forall2_del; exact F1|]. intros g G. apply (PS g G). apply running_del.
  - assert (L : (t < length (sc_tasks (lc_c x)))%nat) by (apply nth_error_Some; congruence). rewrite T, length_upd, Nat.ltb_irrefl by exact L.
    split; [|intros g G; apply (PS g G); lia]. eapply Forall2_upd; [exact N|exact F1|]. intros [g|]; cbn; auto.
Qed.
Lemma fit_same x c' ext : fit x -> sc_tasks c' = sc_tasks (lc_c x) -> caps c' = caps (lc_c x) ++ ext -> Forall (Z.le 0) ext -> fit (LConn c' (lc_in x)).
Proof.
  intros (F1 & F2) T C X. unfold fit. cbn [lc_c lc_in]. rewrite T. assert (LC : (length (sc_chans (lc_c x)) <= length (sc_chans c'))%nat) by (rewrite <- !caps_len, C, app_length; lia). split.
  - eapply Forall2_mono; [exact F1|]. intros t [g|]; cbn; [intros [? ?]; split; [lia|assumption]|auto].
  - intros g G. destruct (Nat.lt_ge_cases g (length (sc_chans (lc_c x)))) as [H|H].
    + unfold pool_size in *. rewrite cap_caps, C, app_nth1, <- cap_caps in * by (rewrite caps_len; exact H). apply F2. exact G.
    + rewrite (running_fresh g (lc_in x) (length (sc_chans (lc_c x)))); [unfold pool_size; lia|exact (placed_in _ _ _ F1)|exact H].
Qed.

(** ** Each connection of the loop *)
Definition made (pr : params) (x : lconn) : Prop := (exists now es, run pr (opened now) es = Ok (lc_c x)) /\ fit x.
Definition all_made (pr : params) (l : loop) : Prop := forall i x, nth_error (lp_cs l) i = Some x -> made pr x.
Lemma run_snoc pr c es e c1 : run pr c es = Ok c1 -> run pr c (es ++ [e]) = step pr c1 e.
Proof.
  revert c. induction es as [|a es IH]; intros c E; cbn [run app] in *; [injection E as ->; destruct (step pr c1 e); reflexivity|].
  destruct (step pr c a) as [c2| |]; cbn [bind] in *; try discriminate. auto.
Qed.
Lemma made_sized pr x : made pr x -> sized (lc_c x).
Proof. intros ((now & es & E) & _). eapply sized_run; [apply sized_opened|exact E]. Qed.
Lemma made_step pr x e c' p : made pr x -> step pr (lc_c x) e = Ok c' -> fit (LConn c' p) -> made pr (LConn c' p).
Proof. intros ((now & es & E) & _) S F. split; [|exact F]. exists now, (es ++ [e]). rewrite (run_snoc _ _ _ _ _ E). exact S. Qed.
Lemma all_upd pr cs i x x' : (forall j y, nth_error cs j = Some y -> made pr y) -> nth_error cs i = Some x -> made pr x' ->
  forall j y, nth_error (upd cs i x') j = Some y -> made pr y.
Proof.
  intros H N M j y Y. destruct (Nat.eq_dec j i) as [->|D].
  - rewrite (nth_error_upd_same _ _ _ _ N) in Y. injection Y as <-. exact M.
  - rewrite nth_error_upd_other in Y by (auto; apply nth_error_Some; congruence). eauto.
Qed.
(** A goroutine for the session's pool is started only when there is one. *)
Lemma recv_job pr o seg c c' : on_recv pr o seg c = Ok c' ->
  sc_tasks c' = sc_tasks c \/ (exists k l, sc_tasks c' = sc_tasks c ++ [(JLogin k l, PStart)]) \/
  exists j, sc_tasks c' = sc_tasks c ++ [(j, PStart)] /\ job_for j = true /\ se_res (sc_sess c) = true /\ sc_open c = true /\ sc_open c' = true.
Proof.
  intros E. apply on_recv_step in E. destruct E as [O1|O1 F|O1 F|k rest O1 F N|k rest h a c1 O1 F Hin Hc HA]; auto; [left; exact (close_tasks (with_buf c (sc_buf c ++ seg)))|].
  inversion HA; subst; cbn [closing]; rewrite ?close_tasks; auto.
  - right. left. exists k, l. reflexivity.
  - right. right. exists (JFlow k r). repeat split; auto.
  - right. right. exists (JSubmit k r). repeat split; auto.
  - right. right. exists j. repeat split; auto. destruct j; try discriminate; reflexivity.
Qed.
Definition res_win (c : sconn) : Prop := se_res (sc_sess c) = true -> exists g, se_win (sc_sess c) = Some g.
Lemma res_close c : res_win c -> res_win (OnClose c).
Proof. unfold OnClose, res_win. destruct (sc_open c); cbn; [discriminate|auto]. Qed.
Lemma res_step pr c e c' : res_win c -> step pr c e = Ok c' -> res_win c'.
Proof.
  intros H E. destruct e as [[seg|i| | |] o]; cbn [step] in E.
  - apply on_recv_step in E. destruct E as [O1|O1 F|O1 F|k rest O1 F N|k rest h a c1 O1 F Hin Hc HA]; auto; [apply res_close; exact H|].
    inversion HA; subst; cbn [closing]; try apply res_close; exact H.
  - injection E as <-. destruct (nth_error (sc_tasks c) i) as [[j q]|] eqn:N; [|unfold on_task; rewrite N; auto].
    destruct (on_task_step pr o i c j q N) as [W1 F1|Ej|it W1 I1 C1|g W1 Q|W1 Q S|W1 Q|k r it code a Ej Eq I1 C1 Ec Ek Ea|s' its w W1 Eq Nj SS It Wi|its a k Eq W1 It|g W1 Q|W1 Q]; auto;
      try (unfold try_send, try_recv; repeat match goal with |- context [if ?b then _ else _] => destruct b end; exact H).
    destruct (same_win _ _ SS) as (_ & _ & S2 & S3 & _). unfold res_win in *. cbn [sc_sess]. rewrite S2, S3. exact H.
  - unfold on_write in E. destruct (sc_open c); [|injection E as <-; exact H]. destruct (sc_queue c) as [|[[kd b] f] r]; [injection E as <-; exact H|].
    destruct f; cbn [callback] in E; try (injection E as <-; exact H).
    + destruct ac as [ac|]; destruct (code =? 0); try discriminate; try (injection E as <-; exact H).
      apply bind_ok in E as (c2 & E2 & E). injection E as <-. unfold completeLogin in E2. destruct (_ <? 0) eqn:WN; [discriminate|]. injection E2 as <-. intros _. eexists. reflexivity.
    + destruct (code =? 0); injection E as <-; exact H.
  - injection E as <-. destruct (step_tick pr o c) as (js & TK & _). rewrite TK. exact H.
  - injection E as <-. apply res_close. exact H.
Qed.
Lemma res_run pr es : forall c c', res_win c -> run pr c es = Ok c' -> res_win c'.
Proof.
  induction es as [|e es IH]; intros c c' H E; cbn [run] in E; [injection E as <-; exact H|]. apply bind_ok in E as (c1 & E1 & E2). eapply IH; [|exact E2]. eapply res_step; eauto.
Qed.
Lemma made_res pr x : made pr x -> res_win (lc_c x).
Proof. intros ((now & es & E) & _). eapply res_run; [|exact E]. intros H. discriminate. Qed.
Lemma to_pool_job pr o seg c : to_pool pr o seg c = true -> exists c' j, on_recv pr (granted o) seg c = Ok c' /\ sc_tasks c' = sc_tasks c ++ [(j, PStart)] /\ job_for j = true /\
  se_res (sc_sess c) = true /\ sc_open c = true /\ sc_open c' = true.
Proof.
  unfold to_pool. destruct (on_recv _ _ _ _) as [c'| |] eqn:E; try discriminate. intros H. exists c'. destruct (recv_job _ _ _ _ _ E) as [T|[(k & l & T)|(j & T & J)]].
  - rewrite T, skipn_all in H. discriminate.
  - rewrite T, skipn_length_app in H. discriminate.
  - exists j. auto.
Qed.
(** Otherwise a read starts at most the goroutine of a login. *)
Lemma not_pool_job pr o seg c c' : to_pool pr o seg c = false -> on_recv pr o seg c = Ok c' -> exists js, sc_tasks c' = sc_tasks c ++ js /\ forall t, In t js -> job_for (fst t) = false.
Proof.
  intros TP E. destruct (o_acc o) eqn:A.
  - assert (G : granted o = o) by (destruct o; cbn in A; subst; reflexivity). unfold to_pool in TP. rewrite G, E in TP. destruct (recv_job _ _ _ _ _ E) as [T|[(k & l & T)|(j & T & J & _)]].
    + exists []. rewrite app_nil_r. split; [exact T|intros t []].
    + eexists. split; [exact T|]. intros t [<-|[]]. reflexivity.
    + exfalso. rewrite T, skipn_length_app in TP. destruct j; discriminate.
  - exists []. rewrite app_nil_r. split; [|intros t []]. apply on_recv_step in E. destruct E as [O1|O1 F|O1 F|k rest O1 F N|k rest h a c1 O1 F Hin Hc HA]; auto; [exact (close_tasks (with_buf c (sc_buf c ++ seg)))|].
    inversion HA; subst; try congruence; cbn [closing]; rewrite ?close_tasks; reflexivity.
Qed.
Lemma take_made pr o seg x x' : made pr x -> has_room x = true -> take pr o seg x = Ok x' -> to_pool pr o seg (lc_c x) = true -> made pr x'.
Proof.
  intros M R E TP. unfold take in E. apply bind_ok in E as (c' & E & E'). injection E' as <-. pose proof (made_sized _ _ M) as (CK & _ & W). pose proof (made_res _ _ M) as RW. destruct M as (M & F).
  destruct (step_recv pr (granted o) seg (lc_c x) c' CK E) as (js & ls & T & L & _ & _ & C & _).
  apply (made_step pr x (ERecv seg, granted o)); [split; assumption|exact E|]. change (fit (grown x c' (se_win (sc_sess (lc_c x))))).
  destruct (to_pool_job _ _ _ _ TP) as (c2 & j & E2 & T2 & J & RS & _). destruct (RW RS) as (g & G). replace c2 with c' in T2 by congruence. rewrite T in T2. apply app_inv_head in T2.
  apply (fit_grown x c' _ js); auto. unfold has_room in R. rewrite G in *. split; [exact L|]. split; [destruct (W g eq_refl); lia|]. split; [exact R|]. intros t Ht. rewrite T2 in Ht. destruct Ht as [<-|[]]. exact J.
Qed.
(** What is waited for is a goroutine of the session's pool. *)
Definition wait_ok (pr : params) (l : loop) : Prop :=
  match lp_wait l with None => True | Some (i, seg, o) => exists x, nth_error (lp_cs l) i = Some x /\ to_pool pr o seg (lc_c x) = true /\
    exists g, se_win (sc_sess (lc_c x)) = Some g /\ 0 < nth g (caps (lc_c x)) 0 end.
Lemma wait_upd pr cs w i x x' : wait_ok pr (Loop cs w) -> nth_error cs i = Some x -> like (lc_c x) (lc_c x') ->
  caps (lc_c x') = caps (lc_c x) -> se_win (sc_sess (lc_c x')) = se_win (sc_sess (lc_c x)) -> wait_ok pr (Loop (upd cs i x') w).
Proof.
  intros W N L CE WE. unfold wait_ok in *. cbn [lp_wait lp_cs] in *. destruct w as [[[j seg] o]|]; [|exact I]. destruct W as (y & Y & TP & G).
  assert (I1 : (i < length cs)%nat) by (apply nth_error_Some; congruence). destruct (Nat.eq_dec j i) as [->|D].
  - exists x'. split; [eapply nth_error_upd_same; eauto|]. replace y with x in * by congruence. split; [eapply to_pool_like; eauto|]. rewrite CE, WE. exact G.
  - exists y. split; [rewrite nth_error_upd_other; auto|split; [exact TP|exact G]].
Qed.
Lemma all_step pr l e l' : all_made pr l -> wait_ok pr l -> loop_step pr l e = Ok l' -> all_made pr l' /\ wait_ok pr l'.
Proof.
  intros A W E. destruct l as [cs w]. destruct e as [now|i seg o| |i o|i|i t o|i o]; cbn [loop_step lp_wait lp_cs] in E; unfold on_loop in E; cbn [lp_wait lp_cs] in E.
  - destruct w as [w|]; injection E as <-; [auto|]. split; [|exact I]. intros i x N. cbn [lp_cs] in N. destruct (Nat.lt_ge_cases i (length cs)) as [H|H].
    + rewrite nth_error_app1 in N by exact H. eapply A. exact N.
    + rewrite nth_error_app2 in N by exact H. destruct (i - length cs)%nat as [|m]; cbn [nth_error] in N; [|destruct m; discriminate]. injection N as <-.
      split; [exists now, []; reflexivity|]. split; [constructor|]. intros g G. exfalso. unfold get_chan in G. cbn in G. destruct g; discriminate G.
  - destruct w as [w|]; [injection E as <-; auto|]. destruct (nth_error cs i) as [x|] eqn:N; [|injection E as <-; auto]. pose proof (A i x N) as M.
    destruct (to_pool pr o seg (lc_c x)) eqn:TP.
    + destruct (has_room x) eqn:R.
      * apply bind_ok in E as (x' & T & E). injection E as <-. split; [|exact I]. unfold all_made, lput. cbn [lp_cs]. eapply all_upd; eauto. eapply take_made; eauto.
      * injection E as <-. split; [exact A|]. unfold wait_ok. cbn [lp_wait lp_cs]. exists x. split; [exact N|]. split; [exact TP|].
        unfold has_room in R. destruct (se_win (sc_sess (lc_c x))) as [g|]; [|discriminate]. exists g. split; [reflexivity|]. apply orb_false_iff in R as [R _]. unfold pool_size in R. rewrite cap_caps in R. lia.
    + apply bind_ok in E as (c' & T & E). injection E as <-. split; [|exact I]. unfold all_made, lput. cbn [lp_cs]. eapply all_upd; eauto.
      destruct (made_sized _ _ M) as (CK & _). destruct (not_pool_job _ _ _ _ _ TP T) as (js & T1 & T2). destruct (step_recv pr o seg (lc_c x) c' CK T) as (_ & _ & _ & _ & _ & _ & C & _).
      apply (made_step pr x (ERecv seg, o)); [exact M|exact T|]. change (fit (grown x c' None)). apply (fit_grown x c' None js); auto. apply M.
  - destruct w as [[[i seg] o]|]; [|injection E as <-; auto]. destruct (nth_error cs i) as [x|] eqn:N; [|injection E as <-; auto]. destruct (has_room x) eqn:R; [|injection E as <-; auto].
    apply bind_ok in E as (x' & T & E). injection E as <-. split; [|exact I]. unfold all_made. cbn [lp_cs]. eapply all_upd; eauto. cbn in W. destruct W as (y & Y & TP & _). replace y with x in TP by congruence.
    eapply take_made; eauto.
  - destruct w as [w|]; [injection E as <-; auto|]. destruct (nth_error cs i) as [x|] eqn:N; [|injection E as <-; auto]. pose proof (A i x N) as M.
    apply bind_ok in E as (c' & T & E). injection E as <-. split; [|exact I]. unfold all_made, lput. cbn [lp_cs]. eapply all_upd; eauto. apply (made_step pr x (EWrite, o)); [exact M|exact T|].
    destruct (made_sized _ _ M) as (CK & _). destruct (step_write o (lc_c x) c' CK T) as (T1 & [(_ & C & _)|(kd & b & k & a & _ & C & P & _)]).
    + apply (fit_same x c' []); [apply M|exact T1|rewrite app_nil_r; exact C|constructor].
    + apply (fit_same x c' [ac_MtWindowSize a]); [apply M|exact T1|exact C|constructor; [exact P|constructor]].
  - destruct w as [w|]; [injection E as <-; auto|]. destruct (nth_error cs i) as [x|] eqn:N; [|injection E as <-; auto]. pose proof (A i x N) as M. injection E as <-. split; [|exact I].
    unfold all_made, lput. cbn [lp_cs]. eapply all_upd; eauto. destruct (made_sized _ _ M) as (CK & _). apply (made_step pr x (EClose, orc0)); [exact M|reflexivity|].
    apply (fit_same x (OnClose (lc_c x)) []); [apply M|apply close_tasks|rewrite app_nil_r; apply caps_close; exact CK|constructor].
  - destruct (nth_error cs i) as [x|] eqn:N; [|injection E as <-; auto]. pose proof (A i x N) as M. injection E as <-. destruct (made_sized _ _ M) as (CK & _). split.
    + unfold all_made, lput. cbn [lp_cs]. eapply all_upd; eauto. apply (made_step pr x (ETask t, o)); [exact M|reflexivity|]. apply fit_task; [exact CK|apply M].
    + destruct (step_task pr o t (lc_c x) CK) as (C1 & C2 & _). eapply wait_upd; eauto. apply task_like.
  - destruct (nth_error cs i) as [x|] eqn:N; [|injection E as <-; auto]. pose proof (A i x N) as M. injection E as <-. split.
    + unfold all_made, lput. cbn [lp_cs]. eapply all_upd; eauto. apply (made_step pr x (ETick, o)); [exact M|reflexivity|]. destruct (step_tick pr o (lc_c x)) as (js & TK & J).
      change (fit (grown x (on_tick pr o (lc_c x)) None)). apply (fit_grown x _ None js); [apply M|rewrite TK; reflexivity|rewrite TK; reflexivity|]. intros t Ht. apply J. exact Ht.
    + destruct (step_tick pr o (lc_c x)) as (js & TK & _). eapply wait_upd; eauto; cbn [grown lc_c]; [apply tick_like|rewrite TK; reflexivity|rewrite TK; reflexivity].
Qed.
Lemma all_run pr es : forall l l', all_made pr l -> wait_ok pr l -> loop_run pr l es = Ok l' -> all_made pr l' /\ wait_ok pr l'.
Proof.
  induction es as [|e es IH]; intros l l' A W E; cbn [loop_run] in E; [injection E as <-; auto|]. apply bind_ok in E as (l1 & E1 & E2).
  destruct (all_step pr l e l1 A W E1) as (A1 & W1). eapply IH; eauto.
Qed.
Lemma all_loop0 pr : all_made pr loop0 /\ wait_ok pr loop0.
Proof. split; [intros [|i] x N; discriminate|exact I]. Qed.
