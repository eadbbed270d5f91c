(** * PropHand: property C130 (what a query hands out).
    Model: the query cache with its slices and Result objects as memory that the application shares:
    msc_client/api.go:42-54 (Query returns the stored slice itself), 56-62 (saveQueryCache), session/send_sms.go:10-20
    (Result), the receivers that write into results (on_traffic_*.go) and the sweeper, session_factory.go:187-222.
    ClientModel has the same cache without the application's hands; here a slice is an object of its own whose elements
    have type any.  Left out: the other two caches (which result an answer belongs to comes with the event; C57, C58),
    batches of 64 (the journal gets the same results in several calls, C60), the pool (C86, C124). *)
From Verif Require Import Base ClientModel ClientProofs.

(** ** Model *)
(** An element of a slice of type []any: a pointer to a Result, or anything else, nil included. *)
Inductive cell := Ptr (p : nat) | Alien.
(** [q_slices]: the slices, [q_map]: resultQueryCacheMap, [q_out]: the slices in the hands of the application, in order;
    [q_journal]: what was handed to the journal; [q_dead]: a panic has ended the client. *)
Record hands := Hands { q_heap : list result; q_slices : list (list cell); q_map : list (Z * nat); q_out : list nat; q_journal : list (option result); q_dead : bool }.
Definition q_start : hands := Hands [] [] [] [] [] false.
Definition q_get (h : list result) (x : cell) : option result := match x with Ptr p => nth_error h p | Alien => None end.
Definition q_slice (s : hands) (a : nat) : list cell := nth a (q_slices s) [].
Definition q_look (s : hands) (a : nat) : list (option result) := map (q_get (q_heap s)) (q_slice s a).
Definition q_set {A} (l : list A) (i : nat) (v : A) : list A := match skipn i l with [] => l | _ :: r => firstn i l ++ v :: r end.
Inductive qev :=
| QSend (q : Z) (rs : list result)                (* a send ends with these results: saveQueryCache *)
| QQuery (q : Z)                                  (* the application asks *)
| QAnswer (p : nat) (code : Z) (mid : bytes) (now : Z) (* a receiver books an answer on a result *)
| QReport (p : nat) (txt : bytes) (now : Z)       (* or a delivery report *)
| QPut (i n : nat) (x : cell)                     (* the application writes into element n of the i-th slice it was handed *)
| QEdit (i n : nat) (f : result -> result)        (* or into the result element n points to *)
| QSweep (d now : Z).                             (* a round of the sweeper *)
(** 188-210: slices that are old are taken; results[0].( *session.Result) panics on anything else *)
Fixpoint q_sweep (s : hands) (d now : Z) (es : list (Z * nat)) : option (list Z * list cell) :=
  match es with
  | [] => Some ([], [])
  | (q, a) :: r =>
    match q_slice s a with
    | [] => match q_sweep s d now r with Some (ks, b) => Some (q :: ks, b) | None => None end
    | Alien :: _ => None
    | (Ptr p :: _) as l =>
      match q_sweep s d now r with
      | Some (ks, b) => match nth_error (q_heap s) p with Some r0 => if rt_send r0 + d <? now then Some (q :: ks, l ++ b) else Some (ks, b) | None => Some (ks, b) end
      | None => None
      end
    end
  end.
Definition q_die (s : hands) : hands := Hands (q_heap s) (q_slices s) (q_map s) (q_out s) (q_journal s) true.
Definition q_mem (s : hands) (h : list result) (sl : list (list cell)) : hands := Hands h sl (q_map s) (q_out s) (q_journal s) (q_dead s).
Definition qstep (s : hands) (e : qev) : hands :=
  if q_dead s then s else
  match e with
  | QSend q rs =>
    Hands (q_heap s ++ map (set_qid q) rs) (q_slices s ++ [map Ptr (seq (length (q_heap s)) (length rs))]) (store_at Z.eqb q (length (q_slices s)) (q_map s)) (q_out s) (q_journal s) false
  | QQuery q =>
    match load Z.eqb q (q_map s) with
    | None => s
    | Some a => match q_slice s a with
                | [] => q_die s                      (* 47: result[0] of an empty slice *)
                | Ptr _ :: _ => Hands (q_heap s) (q_slices s) (q_map s) (q_out s ++ [a]) (q_journal s) false
                | Alien :: _ => s
                end
    end
  | QAnswer p code mid now => q_mem s (upd_heap (q_heap s) p (set_answer code mid now)) (q_slices s)
  | QReport p txt now => q_mem s (upd_heap (q_heap s) p (set_report txt now)) (q_slices s)
  | QPut i n x =>
    if match x with Ptr p => (p <? length (q_heap s))%nat | Alien => true end then   (* every pointer of Go points to something *)
      match nth_error (q_out s) i with Some a => q_mem s (q_heap s) (q_set (q_slices s) a (q_set (q_slice s a) n x)) | None => s end
    else s
  | QEdit i n f =>
    match nth_error (q_out s) i with
    | Some a => match nth_error (q_slice s a) n with Some (Ptr p) => q_mem s (upd_heap (q_heap s) p f) (q_slices s) | _ => s end
    | None => s
    end
  | QSweep d now =>
    match q_sweep s d now (q_map s) with
    | None => q_die s
    | Some (ks, b) => Hands (q_heap s) (q_slices s) (fold_left (fun m k => remove Z.eqb k m) ks (q_map s)) (q_out s) (q_journal s ++ map (q_get (q_heap s)) b) false
    end
  end.
Definition qrun (es : list qev) : hands := fold_left qstep es q_start.
(** What the application is told when it asks now. *)
Definition q_ask (s : hands) (q : Z) : option (list (option result)) :=
  match load Z.eqb q (q_map s) with Some a => match q_slice s a with Ptr _ :: _ => Some (q_look s a) | _ => None end | None => None end.

(** ** Specification *)
Definition asks (e : qev) : bool := match e with QQuery _ => true | _ => false end.
Definition writes (e : qev) : bool := match e with QPut _ _ _ | QEdit _ _ _ => true | _ => false end.
(** The event books something on result [p]. *)
Definition books (p : nat) (e : qev) : Prop := match e with QAnswer x _ _ _ | QReport x _ _ => x = p | _ => False end.
(** The application was handed the slice stored under [q], as its [i]-th, and its results are found there. *)
Definition handed (s : hands) (i : nat) (q : Z) (a : nat) : Prop := nth_error (q_out s) i = Some a /\ load Z.eqb q (q_map s) = Some a /\ q_dead s = false.

(** ** Proofs *)
Lemma qrun_app a b : qrun (a ++ b) = fold_left qstep b (qrun a).
Proof. apply fold_left_app. Qed.
Lemma q_set_nth {A} (l : list A) i v j : (i < length l)%nat -> nth_error (q_set l i v) j = if Nat.eqb j i then Some v else nth_error l j.
Proof.
  unfold q_set. revert i j. induction l as [|x l IH]; intros i j H; cbn in H; [lia|]. destruct i as [|i]; [destruct j; reflexivity|]. cbn [skipn firstn]. assert (X : (i < length l)%nat) by lia. specialize (IH i). destruct (skipn i l) as [|y r] eqn:E.
  - exfalso. apply (f_equal (@length _)) in E. rewrite skipn_length in E. cbn in E. lia.
  - destruct j as [|j]; [reflexivity|]. cbn [nth_error app]. rewrite (IH j X). reflexivity.
Qed.
Lemma q_set_len {A} (l : list A) i v : length (q_set l i v) = length l.
Proof. unfold q_set. destruct (skipn i l) as [|y r] eqn:E; [reflexivity|]. rewrite app_length. cbn. apply (f_equal (@length _)) in E. rewrite skipn_length in E. cbn in E. rewrite firstn_length. lia. Qed.
Lemma upd_len h p f : length (upd_heap h p f) = length h.
Proof. unfold upd_heap. destruct (nth_error h p) as [r|] eqn:E; [|reflexivity]. rewrite !app_length, firstn_length, skipn_length. cbn. assert (p < length h)%nat by (apply nth_error_Some; congruence). lia. Qed.
(** Pointers point to results; the map and the hands hold slices that are there. *)
Definition sound (s : hands) : Prop :=
  (forall a p, In (Ptr p) (q_slice s a) -> (p < length (q_heap s))%nat) /\ (forall q a, In (q, a) (q_map s) -> (a < length (q_slices s))%nat) /\ (forall a, In a (q_out s) -> (a < length (q_slices s))%nat).
Lemma slice_set s a l x h : (a < length (q_slices s))%nat -> q_slice (q_mem s h (q_set (q_slices s) a l)) x = if Nat.eqb x a then l else q_slice s x.
Proof.
  intros H. unfold q_slice, q_mem. cbn. pose proof (q_set_nth (q_slices s) a l x H) as E. destruct (Nat.eqb_spec x a) as [->|N].
  - apply nth_error_nth with (d := []) in E. exact E.
  - destruct (nth_error (q_slices s) x) as [y|] eqn:F; [rewrite (nth_error_nth _ _ _ F), (nth_error_nth _ _ _ E); reflexivity|].
    rewrite !nth_overflow; [reflexivity|apply nth_error_None; exact F|rewrite q_set_len; apply nth_error_None; exact F].
Qed.
Lemma in_q_set {A} (l : list A) i v x : In x (q_set l i v) -> x = v \/ In x l.
Proof. unfold q_set. destruct (skipn i l) as [|y r] eqn:E; [auto|]. intros I. apply in_app_or in I as [I|[I|I]]; [right; rewrite <- (firstn_skipn i l); apply in_or_app; auto|auto|right; rewrite <- (firstn_skipn i l), E; apply in_or_app; right; right; exact I]. Qed.
Lemma in_removes ks : forall (m : list (Z * nat)) x, In x (fold_left (fun m k => remove Z.eqb k m) ks m) -> In x m.
Proof. induction ks as [|k ks IH]; intros m x I; [exact I|]. apply IH in I. unfold remove in I. apply filter_In in I. tauto. Qed.
Lemma sound_step s e : sound s -> sound (qstep s e).
Proof.
  intros (A & B & C). unfold qstep. destruct (q_dead s); [split; [exact A|split; assumption]|]. destruct e as [q rs|q|p code mid now|p txt now|i n x|i n f|d now].
  - assert (L : forall a, (a < length (q_slices s))%nat -> nth a (q_slices s ++ [map Ptr (seq (length (q_heap s)) (length rs))]) [] = q_slice s a) by (intros a H; apply app_nth1; exact H).
    split; [|split]; cbn.
    + intros a p. rewrite app_length, map_length. unfold q_slice. cbn. destruct (Nat.lt_ge_cases a (length (q_slices s))) as [H|H]; [rewrite (L a H); intros I; apply A in I; lia|]. destruct (Nat.eq_dec a (length (q_slices s))) as [->|N].
      * rewrite app_nth2, Nat.sub_diag by lia. cbn. intros I. apply in_map_iff in I as (y & [= ->] & I). apply in_seq in I. lia.
      * rewrite nth_overflow by (rewrite app_length; cbn; lia). intros [].
    + intros k a I. rewrite app_length. cbn. unfold store_at in I. destruct I as [[= _ <-]|I]; [lia|]. unfold remove in I. apply filter_In in I as [I _]. apply B in I. lia.
    + intros a I. rewrite app_length. apply C in I. cbn. lia.
  - destruct (load Z.eqb q (q_map s)) as [a|] eqn:E; [|split; [exact A|split; assumption]]. destruct (q_slice s a) as [|[p|] l] eqn:Sl; [split; [exact A|split; assumption]| |split; [exact A|split; assumption]].
    split; [exact A|]. split; [exact B|]. cbn. intros x I. apply in_app_or in I as [I|[<-|[]]]; [auto|]. unfold q_slice in Sl. destruct (Nat.lt_ge_cases a (length (q_slices s))) as [H|H]; [exact H|]. rewrite nth_overflow in Sl by lia. discriminate Sl.
  - split; [|split; [exact B|exact C]]. cbn. intros a x I. rewrite upd_len. exact (A a x I).
  - split; [|split; [exact B|exact C]]. cbn. intros a x I. rewrite upd_len. exact (A a x I).
  - destruct (match x with Ptr p => (p <? length (q_heap s))%nat | Alien => true end) eqn:V; [|split; [exact A|split; assumption]]. destruct (nth_error (q_out s) i) as [a|] eqn:O; [|split; [exact A|split; assumption]].
    assert (Ha : (a < length (q_slices s))%nat) by (apply C; eapply nth_error_In; exact O). split; [|split; cbn; rewrite q_set_len; assumption]. intros b p. rewrite (slice_set s a _ b _ Ha). cbn [q_mem q_heap]. destruct (Nat.eqb b a); [|apply A].
    intros I. apply in_q_set in I as [<-|I]; [apply Nat.ltb_lt; exact V|exact (A a p I)].
  - destruct (nth_error (q_out s) i) as [a|]; [|split; [exact A|split; assumption]]. destruct (nth_error (q_slice s a) n) as [[p|]|]; try (split; [exact A|split; assumption]). split; [|split; [exact B|exact C]]. cbn. intros b x I. rewrite upd_len. exact (A b x I).
  - destruct (q_sweep s d now (q_map s)) as [[ks b]|]; [|split; [exact A|split; assumption]]. split; [exact A|]. split; [|exact C]. cbn. intros q a I. apply in_removes in I. exact (B q a I).
Qed.
Lemma sound_run es : sound (qrun es).
Proof.
  unfold qrun. assert (G : forall s, sound s -> sound (fold_left qstep es s)) by (induction es as [|e es IH]; intros s V; [exact V|]; apply IH; apply sound_step; exact V). apply G.
  split; [|split; cbn; [intros ? ? []|intros ? []]]. intros a p. unfold q_slice. destruct a; cbn; intros [].
Qed.
Lemma look_upd s p f a : q_look (q_mem s (upd_heap (q_heap s) p f) (q_slices s)) a = map (fun x => match x with Ptr y => if Nat.eqb y p then option_map f (nth_error (q_heap s) p) else nth_error (q_heap s) y | Alien => None end) (q_slice s a).
Proof. unfold q_look, q_slice. cbn. apply map_ext. intros [y|]; cbn; [apply upd_heap_nth|reflexivity]. Qed.
(** Each answer to one of its packets changes what the application already holds, in every run. *)
Theorem C130_refuted_changes : forall es i a n p code mid now, let s := qrun es in q_dead s = false -> nth_error (q_out s) i = Some a -> nth_error (q_slice s a) n = Some (Ptr p) ->
  exists r, nth_error (q_look s a) n = Some (Some r) /\ exists r', nth_error (q_look (qrun (es ++ [QAnswer p code mid now])) a) n = Some (Some r') /\ rt_result r' = code /\ rt_msgid r' = mid /\ rt_resp r' = now /\ rt_phone r' = rt_phone r.
Proof.
  intros es i a n p code mid now s D O N. destruct (sound_run es) as (A & _ & _). fold s in A. assert (L : (p < length (q_heap s))%nat) by (apply (A a); eapply nth_error_In; exact N). apply nth_error_Some in L. destruct (nth_error (q_heap s) p) as [r|] eqn:H; [|congruence].
  exists r. split; [unfold q_look; rewrite nth_error_map, N; cbn; rewrite H; reflexivity|]. rewrite qrun_app. cbn [fold_left]. fold s. unfold qstep. rewrite D. rewrite look_upd, nth_error_map, N. cbn. rewrite Nat.eqb_refl, H. cbn. eexists. split; [reflexivity|]. cbn. auto.
Qed.
Lemma in_map_load (m : list (Z * nat)) q a : load Z.eqb q m = Some a -> In (q, a) m.
Proof. induction m as [|[k v] m IH]; cbn; intros M; [discriminate M|]. destruct (Z.eqb_spec q k) as [->|X]; [injection M as ->; left; reflexivity|right; auto]. Qed.
Lemma sweep_takes s d now p0 l r0 a q : q_slice s a = Ptr p0 :: l -> nth_error (q_heap s) p0 = Some r0 -> rt_send r0 + d < now -> forall es ks b, In (q, a) es -> q_sweep s d now es = Some (ks, b) -> incl (q_slice s a) b /\ In q ks.
Proof.
  intros Sl H T. induction es as [|[q0 a0] es IH]; intros ks b I E; [destruct I|]. cbn [q_sweep] in E. destruct I as [[= -> ->]|I].
  - rewrite Sl in E |- *. destruct (q_sweep s d now es) as [[ks1 b1]|]; [|discriminate E]. rewrite H in E. apply Z.ltb_lt in T. rewrite T in E. apply (f_equal (option_map (fun x => (fst x, snd x)))) in E. cbn in E. injection E as <- E. rewrite <- E. split; [|left; reflexivity]. intros x [<-|Hx]; [left; reflexivity|right; apply in_or_app; auto].
  - destruct (q_sweep s d now es) as [[ks1 b1]|]; [|destruct (q_slice s a0) as [|[p|] t]; discriminate E]. destruct (IH ks1 b1 I eq_refl) as [I1 I2].
    destruct (q_slice s a0) as [|[p|] t]; [injection E as <- <-; split; [exact I1|right; exact I2]| |discriminate E]. destruct (nth_error (q_heap s) p) as [r|]; [destruct (rt_send r + d <? now)|]; (injection E as <- <-).
    + split; [intros x Hx; right; apply in_or_app; right; exact (I1 x Hx)|right; exact I2].
    + auto.
    + auto.
Qed.
(** What the application writes into a result is what later queries show and what the journal is given. *)
Theorem C130_refuted_journal : forall es i q a n p r f d now, let s := qrun es in handed s i q a -> nth_error (q_slice s a) n = Some (Ptr p) -> nth_error (q_heap s) p = Some r ->
  let s1 := qrun (es ++ [QEdit i n f]) in
  (forall l, q_ask s1 q = Some l -> nth_error l n = Some (Some (f r))) /\
  let s2 := qrun (es ++ [QEdit i n f; QSweep d now]) in
  (forall p0 l r0, q_slice s a = Ptr p0 :: l -> nth_error (q_heap s1) p0 = Some r0 -> rt_send r0 + d < now -> q_dead s2 = false -> In (Some (f r)) (q_journal s2)).
Proof.
  intros es i q a n p r f d now s (O & M & D) N H s1. assert (E : s1 = q_mem s (upd_heap (q_heap s) p f) (q_slices s)) by (unfold s1; rewrite qrun_app; cbn [fold_left]; fold s; unfold qstep; rewrite D, O, N; reflexivity).
  split.
  - intros l. rewrite E. unfold q_ask. cbn [q_mem q_map]. rewrite M. rewrite look_upd. change (q_slice (q_mem s (upd_heap (q_heap s) p f) (q_slices s)) a) with (q_slice s a). intros X.
    assert (Y : l = map (fun x => match x with Ptr y => if Nat.eqb y p then option_map f (nth_error (q_heap s) p) else nth_error (q_heap s) y | Alien => None end) (q_slice s a)) by (destruct (q_slice s a) as [|[y|] t]; congruence). rewrite Y, nth_error_map, N. cbn. rewrite Nat.eqb_refl, H. reflexivity.
  - intros s2 p0 l r0 Sl H0 T D2. assert (E2 : s2 = qstep s1 (QSweep d now)) by (unfold s2; change [QEdit i n f; QSweep d now] with ([QEdit i n f] ++ [QSweep d now]); rewrite app_assoc, qrun_app; reflexivity).
    rewrite E2 in D2 |- *. unfold qstep in *. assert (D1 : q_dead s1 = false) by (rewrite E; exact D). rewrite D1 in *. destruct (q_sweep s1 d now (q_map s1)) as [[ks b]|] eqn:W; [|discriminate D2].
    assert (Sl1 : q_slice s1 a = q_slice s a) by (rewrite E; reflexivity). rewrite <- Sl1 in Sl, N. assert (Mm : In (q, a) (q_map s1)) by (rewrite E; cbn; apply in_map_load; exact M).
    destruct (sweep_takes s1 d now p0 l r0 a q Sl H0 T _ _ _ Mm W) as [I _].
    cbn [q_journal]. apply in_or_app. right. apply in_map_iff. exists (Ptr p). split; [|apply I; eapply nth_error_In; exact N]. cbn. rewrite E. cbn. rewrite upd_heap_nth, Nat.eqb_refl, H. reflexivity.
Qed.
Lemma sweep_alien s d now : forall es q a l, In (q, a) es -> q_slice s a = Alien :: l -> q_sweep s d now es = None.
Proof.
  induction es as [|[q0 a0] es IH]; intros q a l I Sl; [destruct I|]. cbn [q_sweep]. destruct I as [[= -> ->]|I]; [rewrite Sl; reflexivity|].
  rewrite (IH q a l I Sl). destruct (q_slice s a0) as [|[p|] t]; reflexivity.
Qed.
(** One other value in the first place of the slice, nil for instance: the send is not found any more, asking for it
    is still harmless, and the next round of the sweeper ends the client, whatever the cache time and the clock. *)
Theorem C130_refuted_ends : forall es i q a d now, let s := qrun es in handed s i q a -> q_slice s a <> [] ->
  q_ask (qrun (es ++ [QPut i 0 Alien])) q = None /\ qrun (es ++ [QPut i 0 Alien; QQuery q]) = qrun (es ++ [QPut i 0 Alien]) /\
  q_dead (qrun (es ++ [QPut i 0 Alien])) = false /\ q_dead (qrun (es ++ [QPut i 0 Alien; QSweep d now])) = true.
Proof.
  intros es i q a d now s (O & M & D) N. destruct (sound_run es) as (_ & B & C). fold s in B, C. assert (Ha : (a < length (q_slices s))%nat) by (apply C; eapply nth_error_In; exact O).
  assert (E : qrun (es ++ [QPut i 0 Alien]) = q_mem s (q_heap s) (q_set (q_slices s) a (q_set (q_slice s a) 0 Alien))) by (rewrite qrun_app; cbn [fold_left]; fold s; unfold qstep; rewrite D, O; reflexivity).
  assert (Sl : exists l, q_slice (qrun (es ++ [QPut i 0 Alien])) a = Alien :: l) by (rewrite E, (slice_set s a _ a _ Ha), Nat.eqb_refl; destruct (q_slice s a) as [|x l]; [congruence|]; exists l; reflexivity). destruct Sl as (l & Sl).
  assert (M1 : load Z.eqb q (q_map (qrun (es ++ [QPut i 0 Alien]))) = Some a) by (rewrite E; exact M). assert (D0 : q_dead (qrun (es ++ [QPut i 0 Alien])) = false) by (rewrite E; exact D).
  split; [|split; [|split; [exact D0|]]].
  - unfold q_ask. rewrite M1, Sl. reflexivity.
  - change [QPut i 0 Alien; QQuery q] with ([QPut i 0 Alien] ++ [QQuery q]). rewrite app_assoc, qrun_app. cbn [fold_left]. unfold qstep. rewrite D0, M1, Sl. reflexivity.
  - change [QPut i 0 Alien; QSweep d now] with ([QPut i 0 Alien] ++ [QSweep d now]). rewrite app_assoc, qrun_app. cbn [fold_left]. unfold qstep. assert (D1 : q_dead (qrun (es ++ [QPut i 0 Alien])) = false) by (rewrite E; exact D). rewrite D1.
    rewrite (sweep_alien _ d now _ q a l); [reflexivity| |exact Sl]. rewrite E. cbn [q_mem q_map]. apply in_map_load. exact M.
Qed.
(** As long as the application only looks, its asking changes nothing: the memory, the cache and the journal are those
    of the same run without the queries. *)
Theorem C130_partial : forall es, existsb writes es = false -> q_dead (qrun es) = false ->
  let s := qrun es in let s' := qrun (filter (fun e => negb (asks e)) es) in
  q_heap s = q_heap s' /\ q_slices s = q_slices s' /\ q_map s = q_map s' /\ q_journal s = q_journal s' /\ q_dead s' = false /\ forall q, q_ask s q = q_ask s' q.
Proof.
  intros es W D. assert (G : forall es, existsb writes es = false -> q_dead (qrun es) = false -> let s := qrun es in let s' := qrun (filter (fun e => negb (asks e)) es) in
    q_heap s = q_heap s' /\ q_slices s = q_slices s' /\ q_map s = q_map s' /\ q_journal s = q_journal s' /\ q_dead s' = false).
  { clear. induction es as [|e es IH] using rev_ind; intros W D; [auto 6|]. rewrite existsb_app in W. apply orb_false_iff in W as [W1 W2]. cbn in W2. rewrite orb_false_r in W2. rewrite filter_app. rewrite !qrun_app in *. cbn [fold_left filter] in *.
    assert (D0 : q_dead (qrun es) = false) by (destruct (q_dead (qrun es)) eqn:X; [|reflexivity]; unfold qstep in D; rewrite X in D; congruence). destruct (IH W1 D0) as (H1 & H2 & H3 & H4 & H5). clear IH.
    set (s := qrun es) in *. set (s' := qrun (filter (fun e => negb (asks e)) es)) in *. clearbody s s'. destruct s as [h sl m o j dd], s' as [h' sl' m' o' j' dd']. cbn in *. subst h' sl' m' j' dd dd'.
    destruct e as [q rs|q|p code mid now|p txt now|i n x|i n f|d now]; try discriminate W2; cbn [asks negb fold_left]; unfold qstep in *; cbn in *; auto 6.
    - destruct (load Z.eqb q m) as [a|]; [|auto 6]. unfold q_slice in *. cbn in *. destruct (nth a sl []) as [|[p|] l]; [discriminate D|auto 6|auto 6].
    - assert (X : forall es, q_sweep (Hands h sl m o j false) d now es = q_sweep (Hands h sl m o' j false) d now es) by (induction es0 as [|[q a] es0 IHe]; [reflexivity|]; cbn [q_sweep]; rewrite IHe; reflexivity).
      rewrite X in *. destruct (q_sweep (Hands h sl m o' j false) d now m) as [[ks b]|]; [cbn; auto 6|discriminate D]. }
  cbv zeta. destruct (G es W D) as (H1 & H2 & H3 & H4 & H5). split; [exact H1|]. split; [exact H2|]. split; [exact H3|]. split; [exact H4|]. split; [exact H5|]. intros q. unfold q_ask, q_look, q_slice. rewrite H1, H2, H3. reflexivity.
Qed.
(** And what it holds stays as it is while nobody writes into it and nothing is booked on its results: other sends,
    other answers, queries and rounds of the sweeper, also the one that takes it out of the cache. *)
Theorem C130_still_partial : forall es es' i a, let s := qrun es in nth_error (q_out s) i = Some a -> existsb writes es' = false ->
  (forall e p, In e es' -> In (Ptr p) (q_slice s a) -> ~ books p e) -> q_look (qrun (es ++ es')) a = q_look s a.
Proof.
  intros es es' i a s O W Bk. assert (Ha : (a < length (q_slices s))%nat) by (apply (sound_run es); eapply nth_error_In; exact O).
  assert (G : q_slice (qrun (es ++ es')) a = q_slice s a /\ (a < length (q_slices (qrun (es ++ es'))))%nat /\ q_look (qrun (es ++ es')) a = q_look s a).
  { clear O. induction es' as [|e es' IH] using rev_ind; [rewrite app_nil_r; auto|]. rewrite existsb_app in W. apply orb_false_iff in W as [W1 W2]. cbn in W2. rewrite orb_false_r in W2.
    destruct IH as (I1 & I2 & I3); [exact W1|intros e0 p I; apply Bk; apply in_or_app; auto|]. assert (Be : forall p, In (Ptr p) (q_slice s a) -> ~ books p e) by (intros p; apply Bk; apply in_or_app; right; left; reflexivity).
    destruct (sound_run (es ++ es')) as (A & _ & _). rewrite app_assoc, qrun_app. cbn [fold_left]. set (t := qrun (es ++ es')) in *. clearbody t. rewrite <- I1 in Be. unfold qstep. destruct (q_dead t); [auto|].
    assert (Up : forall p f, (forall x, In (Ptr x) (q_slice t a) -> x <> p) -> q_look (q_mem t (upd_heap (q_heap t) p f) (q_slices t)) a = q_look s a).
    { intros p f X. rewrite look_upd, <- I3. unfold q_look. apply map_ext_in. intros [y|] Hy; [|reflexivity]. cbn. destruct (Nat.eqb_spec y p); [exfalso; exact (X y Hy e0)|reflexivity]. }
    destruct e as [q rs|q|p code mid now|p txt now|j n x|j n f|d now]; try discriminate W2.
    - assert (Sl : q_slice (Hands (q_heap t ++ map (set_qid q) rs) (q_slices t ++ [map Ptr (seq (length (q_heap t)) (length rs))]) (store_at Z.eqb q (length (q_slices t)) (q_map t)) (q_out t) (q_journal t) false) a = q_slice t a) by (unfold q_slice; cbn; apply app_nth1; exact I2).
      split; [rewrite Sl; exact I1|]. split; [cbn; rewrite app_length; lia|]. rewrite <- I3. unfold q_look. rewrite Sl. cbn [q_heap]. apply map_ext_in. intros [y|] Hy; [|reflexivity]. cbn. apply nth_error_app1. exact (A a y Hy).
    - destruct (load Z.eqb q (q_map t)) as [b|]; [|auto]. destruct (q_slice t b) as [|[p|] l]; auto.
    - split; [exact I1|]. split; [exact I2|]. apply Up. intros x Hx E. subst x. apply (Be p Hx). reflexivity.
    - split; [exact I1|]. split; [exact I2|]. apply Up. intros x Hx E. subst x. apply (Be p Hx). reflexivity.
    - destruct (q_sweep t d now (q_map t)) as [[ks b]|]; auto. }
  apply G.
Qed.
(** Two packets sent and asked for; an answer comes; the application blanks a number; the journal gets both; another
    application puts nil in the first place. *)
Definition demo_result (ph : Z) (t : Z) : result := Result 0 [ph] 7 0 [] [] t 0 0.
Definition demo_hand : list qev := [QSend 5 [demo_result 49 100; demo_result 50 101]; QQuery 5].
Definition blank (r : result) : result := Result (rt_qid r) [] (rt_seq r) (rt_result r) (rt_msgid r) (rt_report r) (rt_send r) (rt_resp r) (rt_rept r).
Example C130_case : let s := qrun demo_hand in handed s 0 5 0 /\ nth_error (q_slice s 0) 1 = Some (Ptr 1) /\ q_look s 0 = [Some (set_qid 5 (demo_result 49 100)); Some (set_qid 5 (demo_result 50 101))] /\
  q_look (qrun (demo_hand ++ [QAnswer 1 8 [1] 200])) 0 = [Some (set_qid 5 (demo_result 49 100)); Some (Result 5 [50] 7 8 [1] [] 101 200 0)].
Proof. vm_compute. auto 6. Qed.
Example C130_case_journal : q_journal (qrun (demo_hand ++ [QEdit 0 1 blank; QSweep 60 1000])) = [Some (set_qid 5 (demo_result 49 100)); Some (Result 5 [] 7 0 [] [] 101 0 0)].
Proof. reflexivity. Qed.
Example C130_case_ends : q_dead (qrun (demo_hand ++ [QPut 0 0 Alien])) = false /\ q_dead (qrun (demo_hand ++ [QPut 0 0 Alien; QSweep 60 100])) = true.
Proof. vm_compute. auto. Qed.
Example C130_case_looks : existsb writes (demo_hand ++ [QAnswer 1 8 [1] 200; QQuery 5; QSweep 60 1000]) = false /\ q_dead (qrun (demo_hand ++ [QAnswer 1 8 [1] 200; QQuery 5; QSweep 60 1000])) = false.
Proof. vm_compute. auto. Qed.
Print Assumptions C130_refuted_changes. Print Assumptions C130_refuted_journal. Print Assumptions C130_refuted_ends. Print Assumptions C130_partial. Print Assumptions C130_still_partial.
