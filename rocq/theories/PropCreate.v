(** * PropCreate: C102 (a carrier is set up from its own section of the settings).
    Model: CreateModel.v (and FactoryModel.select for the choice of the carrier). *)
From Coq Require Import String.
From Verif Require Import Base UtilsModel SpecText UtilsProofs UtfProofs RateModel FactoryModel CreateModel.

(** ** Specification *)
Fixpoint codes (s : string) : bytes :=
  match s with EmptyString => [] | String c r => Z.of_nat (Ascii.nat_of_ascii c) :: codes r end.
(** The carriers in the order of their places, and the key of a setting of a carrier. *)
Definition carriers : list bytes := [codes "cmpp"; codes "sgip"; codes "smgp"].
Definition key (n : bytes) (s : string) : bytes := (n ++ codes "." ++ codes s)%list.
(** [b] is the character [c] in lower case, [lowx] telling for the characters outside ASCII. *)
Definition lowers (lowx : Z -> Z) (c b : Z) : Prop :=
  (65 <= c <= 90 /\ b = c + 32) \/ (0 <= c < 65 \/ 90 < c < 128) /\ b = c \/ 128 <= c /\ b = lowx c.
(** A name, as the bytes of a text, is that of the carrier [n] whatever its case. *)
Definition is_name (lowx : Z -> Z) (name n : bytes) : Prop :=
  exists cs, utf8_text cs name /\ Forall2 (lowers lowx) cs n.
(** The settings of the carrier [n] are the same in both. *)
Definition same_section (n : bytes) (g g' : settings) : Prop :=
  forall rest, g_str g (n ++ codes "." ++ rest)%list = g_str g' (n ++ codes "." ++ rest)%list
            /\ g_int g (n ++ codes "." ++ rest)%list = g_int g' (n ++ codes "." ++ rest)%list.

Section Spec.
Context {account conn session regexp : Type}.
Notation env := (env account conn session regexp).
Notation fac := (fac account session regexp).
(** The numbers in the settings can be used: a window size that is not negative (it only counts if a
    number of connections is set), a number of connections there is room for; and the login on the
    first connection does not break off. *)
Definition usable (e : env) (g : settings) (n : bytes) (ac : account) : Prop :=
  g_int g (key n "max-conns") <= e_room e /\
  (0 < g_int g (key n "max-conns") -> 0 <= g_int g (key n "mt-window-size")) /\
  (forall c, e_dial e (g_str g (key n "address")) = Some c -> exists o, e_login e n ac c = Ok o).
(** A carrier as the settings want it. *)
Definition as_set (e : env) (g : settings) (n : bytes) (ac : account) (f : fac) : Prop :=
  f_name f = n /\ f_ac f = ac /\ f_addr f = g_str g (key n "address") /\
  f_regex f = e_compile e (g_str g (key n "segment")) /\
  f_window f = (if 0 <? g_int g (key n "max-conns") then g_int g (key n "mt-window-size") else 16) /\
  (exists p, f_limiter f = NewLimiter (Every p) (f_window f) /\
     (g_int g (key n "throughput") <= 0 -> p = 10000000) /\
     (0 < g_int g (key n "throughput") -> p = 1000000 / g_int g (key n "throughput") * 1000)) /\
  (forall s, In s (f_sessions f) <->
     exists c, e_dial e (g_str g (key n "address")) = Some c /\ e_login e n ac c = Ok (Some s)).
(** What is done for it, in this order. *)
Definition work_for (e : env) (g : settings) (n : bytes) (ac : account) : list (act account conn) :=
  [AFind n (g_str g (key n "client-id")); ADial (g_str g (key n "address"))] ++
  (match e_dial e (g_str g (key n "address")) with Some c => [ALogin n ac c] | None => [] end) ++
  [ATick n (if g_int g (key n "tick-duration") =? 0 then 1000000000 else g_int g (key n "tick-duration")); AHook n].
End Spec.

(** ** Names *)
Lemma codes_ascii s : codes s = LogModel.ascii_bytes s.
Proof. induction s; cbn; congruence. Qed.
Lemma key_eq n s t : t = (codes "." ++ codes s)%list -> (n ++ t)%list = key n s.
Proof. intros ->. reflexivity. Qed.

Lemma lower_spec lowx c b : lowers lowx c b -> 0 <= c -> low lowx c = b.
Proof.
  unfold lowers, low. intros H H0.
  destruct (Z.ltb_spec c 128).
  - destruct (Z.leb_spec 65 c), (Z.leb_spec c 90); cbn [andb]; lia.
  - lia.
Qed.
Lemma utf8_nonneg c l : utf8_char c l -> 0 <= c.
Proof. intros H. inversion H; subst; lia. Qed.
Lemma lowers_fun lowx c : 0 <= c -> lowers lowx c (low lowx c).
Proof.
  unfold lowers, low. intros H.
  destruct (Z.ltb_spec c 128); [|lia]. destruct (Z.leb_spec 65 c), (Z.leb_spec c 90); cbn [andb]; lia.
Qed.
Lemma text_lower lowx cs name n : utf8_text cs name -> Forall2 (lowers lowx) cs n -> map (low lowx) (runes name) = n.
Proof.
  intros T0 F. rewrite (runes_text _ _ T0). revert n F. induction T0 as [|c cs l m Hc Ht IH]; intros n F; inversion F; subst; [reflexivity|].
  cbn [map]. rewrite (lower_spec _ _ _ H1 (utf8_nonneg _ _ Hc)), (IH _ H3). reflexivity.
Qed.
Lemma carrier_bytes i n : nth_error carriers i = Some n -> flat_map encode_rune n = n /\ ISP_Int n = Some i /\ nth i ISPS [] = n /\ (i < 3)%nat.
Proof.
  intros H. destruct i as [|[|[|i]]]; cbn in H; try (destruct i; discriminate);
    injection H as <-; vm_compute; repeat split; auto.
Qed.
Lemma named_lower lowx name i n : nth_error carriers i = Some n -> is_name lowx name n -> ToLower lowx name = n.
Proof.
  intros Hc (cs & T0 & F). unfold ToLower. rewrite (text_lower _ _ _ _ T0 F). apply (carrier_bytes i n Hc).
Qed.
Lemma own_name lowx i n : nth_error carriers i = Some n -> is_name lowx n n.
Proof.
  intros Hc. exists n. destruct i as [|[|[|i]]]; cbn in Hc; try (destruct i; discriminate); injection Hc as <-;
    (split; [repeat (apply (utf8_cons _ _ [_] _); [constructor; vm_compute; split; discriminate|]); constructor|
     repeat constructor; unfold lowers; lia]).
Qed.
Lemma put_other {account session regexp : Type} (l : places account session regexp) i f j : (i < length l)%nat ->
  length (put l i f) = length l /\ nth_error (put l i f) i = Some (Some f) /\ (j <> i -> nth_error (put l i f) j = nth_error l j).
Proof.
  intros H. unfold put. split; [|split].
  - rewrite app_length, firstn_length. cbn [length]. rewrite skipn_length. lia.
  - rewrite nth_error_app2 by (rewrite firstn_length; lia). rewrite firstn_length.
    replace (i - Nat.min i (length l))%nat with 0%nat by lia. reflexivity.
  - intros N. destruct (Nat.lt_ge_cases j i) as [L|L].
    + rewrite nth_error_app1 by (rewrite firstn_length; lia). rewrite <- (firstn_skipn i l) at 2.
      rewrite nth_error_app1 by (rewrite firstn_length; lia). reflexivity.
    + rewrite nth_error_app2 by (rewrite firstn_length; lia). rewrite firstn_length.
      replace (j - Nat.min i (length l))%nat with (S (j - S i)) by lia. cbn [nth_error].
      rewrite <- (firstn_skipn (S i) l) at 2. rewrite nth_error_app2 by (rewrite firstn_length; lia).
      rewrite firstn_length. f_equal. lia.
Qed.
Lemma nth_of {A} (l : list (option A)) i x : nth_error l i = Some x -> nth i l None = x.
Proof. revert i. induction l; intros [|i] H; cbn in *; try discriminate; auto. congruence. Qed.

Ltac keys n :=
  rewrite ?(key_eq n "client-id" (LogModel.ascii_bytes ".client-id") eq_refl), ?(key_eq n "address" (LogModel.ascii_bytes ".address") eq_refl),
    ?(key_eq n "segment" (LogModel.ascii_bytes ".segment") eq_refl), ?(key_eq n "max-conns" (LogModel.ascii_bytes ".max-conns") eq_refl),
    ?(key_eq n "mt-window-size" (LogModel.ascii_bytes ".mt-window-size") eq_refl), ?(key_eq n "throughput" (LogModel.ascii_bytes ".throughput") eq_refl),
    ?(key_eq n "tick-duration" (LogModel.ascii_bytes ".tick-duration") eq_refl).

(** ** C102 *)
Section Thms.
Context {account conn session regexp : Type}.
Notation env := (env account conn session regexp).
Notation fac := (fac account session regexp).
Notation places := (places account session regexp).

(** A carrier that is not set up yet and whose account is known is set up as its own section says,
    under whatever case its name is given; the other carriers are left alone. *)
Theorem C102_set_up_partial : forall (e : env) g lowx name i n ac (l : places),
  nth_error carriers i = Some n -> is_name lowx name n -> nth_error l i = Some None ->
  e_find e n (g_str g (key n "client-id")) = Some ac -> usable e g n ac ->
  exists l' f, CreateSessionFactory e g lowx name l = (work_for e g n ac, Ok (l', Some f)) /\
    as_set e g n ac f /\
    length l' = length l /\ nth_error l' i = Some (Some f) /\ forall j, j <> i -> nth_error l' j = nth_error l j.
Proof.
  intros e g lowx name i n ac l Hi Hn Hl Ha (U1 & U2 & U3).
  destruct (carrier_bytes i n Hi) as (_ & HI & _ & Hlt).
  assert (Hlen : (i < length l)%nat) by (apply nth_error_Some; congruence).
  unfold CreateSessionFactory. rewrite (named_lower _ _ _ _ Hi Hn), HI, (nth_of _ _ _ Hl). keys n. rewrite Ha.
  replace (e_room e <? g_int g (key n "max-conns")) with false by (symmetry; apply Z.ltb_ge; exact U1).
  assert (W : client_window (g_int g (key n "max-conns")) (g_int g (key n "mt-window-size"))
    = Ok (if 0 <? g_int g (key n "max-conns") then g_int g (key n "mt-window-size") else 16)).
  { unfold client_window. destruct (Z.ltb_spec 0 (g_int g (key n "max-conns"))) as [H|H]; [|reflexivity].
    replace (g_int g (key n "mt-window-size") <? 0) with false by (symmetry; apply Z.ltb_ge; auto). reflexivity. }
  unfold work_for.
  assert (P : exists p, Every (client_period (g_int g (key n "throughput"))) = Every p /\
     (g_int g (key n "throughput") <= 0 -> p = 10000000) /\
     (0 < g_int g (key n "throughput") -> p = 1000000 / g_int g (key n "throughput") * 1000)).
  { eexists. split; [reflexivity|]. unfold client_period. destruct (Z.ltb_spec 0 (g_int g (key n "throughput"))).
    - split; [lia|]. intros _. rewrite Z.quot_div_nonneg by lia. reflexivity.
    - split; [reflexivity|lia]. }
  destruct P as (p & P1 & P2).
  destruct (e_dial e (g_str g (key n "address"))) as [c|] eqn:D.
  - destruct (U3 c eq_refl) as (o & Lo). rewrite Lo.
    destruct o as [s|]; rewrite W, P1; cbn [app]; eexists _, _; (split; [reflexivity|]); (split; [
      unfold as_set; cbn [f_name f_addr f_ac f_sessions f_window f_limiter f_regex];
      repeat match goal with |- _ /\ _ => split end; auto; [exists p; auto|]
      | exact (conj (proj1 (put_other _ _ _ i Hlen)) (conj (proj1 (proj2 (put_other _ _ _ i Hlen)))
          (fun j => proj2 (proj2 (put_other l i _ j Hlen)))))]).
    + intros s'. rewrite D. split; [intros [<-|[]]; eauto|]. intros (c' & E1 & E2). left. congruence.
    + intros s'. rewrite D. split; [intros []|]. intros (c' & E1 & E2). congruence.
  - rewrite W, P1; cbn [app]; eexists _, _; (split; [reflexivity|]); (split; [
      unfold as_set; cbn [f_name f_addr f_ac f_sessions f_window f_limiter f_regex];
      repeat match goal with |- _ /\ _ => split end; auto; [exists p; auto|]
      | exact (conj (proj1 (put_other _ _ _ i Hlen)) (conj (proj1 (proj2 (put_other _ _ _ i Hlen)))
          (fun j => proj2 (proj2 (put_other l i _ j Hlen)))))]).
    intros s'. rewrite D. split; [intros []|]. intros (c' & E1 & E2). congruence.
Qed.

(** A carrier is set up once: afterwards the same one is given out and nothing is done. *)
Theorem C102_once : forall (e : env) g lowx name i n f (l : places),
  nth_error carriers i = Some n -> is_name lowx name n -> nth_error l i = Some (Some f) ->
  CreateSessionFactory e g lowx name l = ([], Ok (l, Some f)).
Proof.
  intros e g lowx name i n f l Hi Hn Hl.
  destruct (carrier_bytes i n Hi) as (_ & HI & _ & Hlt).
  unfold CreateSessionFactory. rewrite (named_lower _ _ _ _ Hi Hn), HI, (nth_of _ _ _ Hl). reflexivity.
Qed.

(** Without its account nothing is set up and no connection is made. *)
Theorem C102_no_account : forall (e : env) g lowx name i n (l : places),
  nth_error carriers i = Some n -> is_name lowx name n -> nth_error l i = Some None ->
  e_find e n (g_str g (key n "client-id")) = None ->
  CreateSessionFactory e g lowx name l = ([AFind n (g_str g (key n "client-id"))], Ok (l, None)).
Proof.
  intros e g lowx name i n l Hi Hn Hl Ha.
  destruct (carrier_bytes i n Hi) as (_ & HI & _ & Hlt).
  unfold CreateSessionFactory. rewrite (named_lower _ _ _ _ Hi Hn), HI, (nth_of _ _ _ Hl). keys n. rewrite Ha. reflexivity.
Qed.

(** The sections of the other carriers do not matter, whatever happens. *)
Theorem C102_own_section : forall (e : env) g g' lowx name i n (l : places),
  nth_error carriers i = Some n -> is_name lowx name n -> same_section n g g' ->
  CreateSessionFactory e g lowx name l = CreateSessionFactory e g' lowx name l.
Proof.
  intros e g g' lowx name i n l Hi Hn S0.
  assert (Ks : forall s, g_str g (key n s) = g_str g' (key n s)) by (intros; apply S0).
  assert (Ki : forall s, g_int g (key n s) = g_int g' (key n s)) by (intros; apply S0).
  unfold CreateSessionFactory. rewrite (named_lower _ _ _ _ Hi Hn). keys n. rewrite !Ks, !Ki. reflexivity.
Qed.

(** A name that is no carrier's ends in a panic at once (as documented): nothing is done. *)
Theorem C102_unknown : forall (e : env) g lowx name cs (l : places),
  utf8_text cs name -> (forall c, 128 <= c <= 1114111 -> exists b, utf8_char (lowx c) b) ->
  (forall n, In n carriers -> ~ is_name lowx name n) ->
  CreateSessionFactory e g lowx name l = ([], Panic).
Proof.
  intros e g lowx name cs l T0 LX N. unfold CreateSessionFactory.
  assert (X : forall n, In n carriers -> ToLower lowx name <> n).
  { intros n Hn E. apply (N n Hn). exists cs. split; [exact T0|].
    unfold ToLower in E. rewrite (runes_text _ _ T0) in E.
    assert (G : forall cs name n, utf8_text cs name -> (forall c, In c n -> 0 <= c < 128) ->
       flat_map encode_rune (map (low lowx) cs) = n -> Forall2 (lowers lowx) cs n).
    { clear - LX. intros cs name n T0. revert n. induction T0 as [|c cs l m Hc Ht IH]; intros n A E.
      - cbn in E. subst. constructor.
      - cbn [map flat_map] in E. pose proof (utf8_nonneg _ _ Hc) as P.
        assert (V : exists b, utf8_char (low lowx c) b).
        { unfold low. destruct (Z.ltb_spec c 128).
          - destruct (Z.leb_spec 65 c), (Z.leb_spec c 90); cbn [andb]; eexists; constructor; lia.
          - apply LX. inversion Hc; subst; lia. }
        destruct V as (b & V). rewrite (encode_rune_spec _ _ V) in E.
        inversion V; subst; cbn [app] in A;
          [constructor; [apply lowers_fun; exact P|apply IH; [intros x Hx; apply A; right; exact Hx|reflexivity]]| | |];
          match goal with A : forall c, In c (?h :: _) -> _ |- _ => specialize (A h (or_introl eq_refl)) end; lia. }
    apply (G cs name n T0); [|exact E]. intros c Hc.
    destruct Hn as [<-|[<-|[<-|[]]]]; cbn in Hc; intuition lia. }
  unfold ISP_Int.
  destruct (list_eq_dec Z.eq_dec _ _) as [E|_]; [exfalso; refine (X _ _ E); left; reflexivity|].
  destruct (list_eq_dec Z.eq_dec _ _) as [E|_]; [exfalso; refine (X _ _ E); right; left; reflexivity|].
  destruct (list_eq_dec Z.eq_dec _ _) as [E|_]; [exfalso; refine (X _ _ E); right; right; left; reflexivity|].
  reflexivity.
Qed.

(** Refuted: a carrier whose settings cannot be used is not refused.  With a segment that is no
    expression it is set up all the same, having been dialled, and from then on every send that comes
    to it breaks off (holding the lock: C85) ... *)
Theorem C102_refuted : forall (e : env) g lowx name i n ac (l : places),
  nth_error carriers i = Some n -> is_name lowx name n -> nth_error l i = Some None -> length l = 3%nat ->
  e_find e n (g_str g (key n "client-id")) = Some ac -> usable e g n ac ->
  e_compile e (g_str g (key n "segment")) = None ->
  exists l' f, snd (CreateSessionFactory e g lowx name l) = Ok (l', Some f) /\
    In (ADial (g_str g (key n "address"))) (fst (CreateSessionFactory e g lowx name l)) /\
    forall e' g' lowx' (m : regexp -> bytes -> bool) phone,
      (forall j, (j < i)%nat -> exists f' r, nth_error l j = Some (Some f') /\ f_regex f' = Some r /\ m r phone = false) ->
      snd (SelectSession (conn := conn) e' g' lowx' m phone l') = Panic.
Proof.
  intros e g lowx name i n ac l Hi Hn Hl L3 Ha U0 Hr.
  destruct (C102_set_up_partial e g lowx name i n ac l Hi Hn Hl Ha U0) as (l' & f & E & (_ & _ & _ & Fr & _) & Ll & Hf & Ho).
  rewrite E. exists l', f. cbn [fst snd]. split; [reflexivity|]. split; [right; left; reflexivity|].
  intros e' g' lowx' m phone Hb. rewrite Hr in Fr.
  destruct (carrier_bytes i n Hi) as (_ & _ & _ & Hlt).
  assert (B : forall j, (j < i)%nat -> exists f' r, nth j l' None = Some f' /\ f_regex f' = Some r /\ m r phone = false).
  { intros j Hj. destruct (Hb j Hj) as (f' & r & A & B & C). exists f', r. split; [|auto]. apply nth_of. rewrite Ho by lia. exact A. }
  apply nth_of in Hf. unfold SelectSession. cbn [select_loop].
  destruct i as [|[|[|i]]]; [| | |lia].
  - rewrite Hf, Fr. reflexivity.
  - destruct (B 0%nat ltac:(lia)) as (f0 & r0 & A0 & B0 & C0). rewrite A0, B0, C0, Hf, Fr. reflexivity.
  - destruct (B 0%nat ltac:(lia)) as (f0 & r0 & A0 & B0 & C0). rewrite A0, B0, C0.
    destruct (B 1%nat ltac:(lia)) as (f1 & r1 & A1 & B1 & C1). rewrite A1, B1, C1, Hf, Fr. reflexivity.
Qed.
(** ... and with a negative window size it connects and logs in first and then breaks off, again and
    again: the connection belongs to nobody. *)
Theorem C102_refuted_window : forall (e : env) g lowx name i n ac c o (l : places),
  nth_error carriers i = Some n -> is_name lowx name n -> nth_error l i = Some None ->
  e_find e n (g_str g (key n "client-id")) = Some ac ->
  0 < g_int g (key n "max-conns") <= e_room e -> g_int g (key n "mt-window-size") < 0 ->
  e_dial e (g_str g (key n "address")) = Some c -> e_login e n ac c = Ok o ->
  CreateSessionFactory e g lowx name l
  = ([AFind n (g_str g (key n "client-id")); ADial (g_str g (key n "address")); ALogin n ac c], Panic).
Proof.
  intros e g lowx name i n ac c o l Hi Hn Hl Ha Hm Hw D Lo.
  destruct (carrier_bytes i n Hi) as (_ & HI & _ & Hlt).
  unfold CreateSessionFactory. rewrite (named_lower _ _ _ _ Hi Hn), HI, (nth_of _ _ _ Hl). keys n. rewrite Ha.
  replace (e_room e <? g_int g (key n "max-conns")) with false by (symmetry; apply Z.ltb_ge; lia).
  rewrite D, Lo. unfold client_window.
  replace (0 <? g_int g (key n "max-conns")) with true by (symmetry; apply Z.ltb_lt; lia).
  replace (g_int g (key n "mt-window-size") <? 0) with true by (symmetry; apply Z.ltb_lt; lia).
  destruct o; reflexivity.
Qed.

(** ** The choice of the carrier, carriers being set up on the way (refinement of FactoryModel.select) *)
Definition view (m : regexp -> bytes -> bool) (f : fac) : factory := option_map m (f_regex f).
(** Each carrier can be set up or has no account. *)
Definition all_usable (e : env) (g : settings) : Prop := forall n, In n carriers ->
  match e_find e n (g_str g (key n "client-id")) with Some ac => usable e g n ac | None => True end.
(** What a carrier's section makes of it, as far as choosing goes. *)
Definition would_be (e : env) (g : settings) (m : regexp -> bytes -> bool) (i : nat) : option factory :=
  match nth_error carriers i with
  | Some n => match e_find e n (g_str g (key n "client-id")) with
              | Some _ => Some (option_map m (e_compile e (g_str g (key n "segment"))))
              | None => None
              end
  | None => None
  end.
Theorem C102_choice : forall (e : env) g lowx m phone (l : places), length l = 3%nat -> all_usable e g ->
  match snd (SelectSession e g lowx m phone l) with
  | Ok (l', f) => length l' = 3%nat /\
      (exists o, select (would_be e g m) phone 0 (map (option_map (view m)) l) = Ok (o, map (option_map (view m)) l') /\
        match o with Some i => nth_error l' i = Some f /\ f <> None | None => f = None end) /\
      (forall i f0, nth_error l i = Some (Some f0) -> nth_error l' i = Some (Some f0)) /\
      (forall i f1, nth_error l i = Some None -> nth_error l' i = Some (Some f1) ->
         exists n ac, nth_error carriers i = Some n /\ e_find e n (g_str g (key n "client-id")) = Some ac /\ as_set e g n ac f1)
  | _ => select (would_be e g m) phone 0 (map (option_map (view m)) l) = Panic
  end.
Proof.
  intros e g lowx m phone l L3 AU.
  (* the loop from place i on, for the list pre ++ rest *)
  assert (G : forall rest pre, (length pre + length rest = 3)%nat ->
    match snd (select_loop e g lowx m phone (length rest) (length pre) (pre ++ rest)) with
    | Ok (l', f) => exists rest', l' = pre ++ rest' /\ length rest' = length rest /\
        (exists o, select (would_be e g m) phone (length pre) (map (option_map (view m)) rest) = Ok (o, map (option_map (view m)) rest') /\
          match o with Some i => nth_error l' i = Some f /\ f <> None | None => f = None end) /\
        (forall i f0, nth_error rest i = Some (Some f0) -> nth_error rest' i = Some (Some f0)) /\
        (forall i f1, nth_error rest i = Some None -> nth_error rest' i = Some (Some f1) ->
           exists n ac, nth_error carriers (length pre + i) = Some n /\ e_find e n (g_str g (key n "client-id")) = Some ac /\ as_set e g n ac f1)
    | _ => select (would_be e g m) phone (length pre) (map (option_map (view m)) rest) = Panic
    end).
  { induction rest as [|x rest IH]; intros pre Lp.
    - cbn [length select_loop snd map select]. exists []. split; [reflexivity|]. split; [reflexivity|]. split; [exists None; split; reflexivity|].
      split; intros i f0 H; destruct i; discriminate H.
    - set (i := length pre) in *.
      assert (Nx : nth i (pre ++ x :: rest) None = x) by (unfold i; rewrite app_nth2, Nat.sub_diag by lia; reflexivity).
      assert (Hc : exists n, nth_error carriers i = Some n).
      { cbn [length] in Lp. destruct (nth_error carriers i) eqn:E; [eauto|]. apply nth_error_None in E. cbn in E. lia. }
      destruct Hc as (n & Hc). destruct (carrier_bytes i n Hc) as (_ & HI & HS & _).
      (* going on behind place i, which now holds y *)
      assert (K : forall y, (forall f0, x = Some f0 -> y = Some f0) ->
        (forall f1, x = None -> y = Some f1 -> exists n ac, nth_error carriers i = Some n /\ e_find e n (g_str g (key n "client-id")) = Some ac /\ as_set e g n ac f1) ->
        match snd (select_loop e g lowx m phone (length rest) (S i) (pre ++ y :: rest)) with
        | Ok (l', f) => exists rest', l' = pre ++ y :: rest' /\ length rest' = length rest /\
            (exists o, select (would_be e g m) phone (S i) (map (option_map (view m)) rest) = Ok (o, map (option_map (view m)) rest') /\
              match o with Some i => nth_error l' i = Some f /\ f <> None | None => f = None end) /\
            (forall j f0, nth_error (x :: rest) j = Some (Some f0) -> nth_error (y :: rest') j = Some (Some f0)) /\
            (forall j f1, nth_error (x :: rest) j = Some None -> nth_error (y :: rest') j = Some (Some f1) ->
               exists n ac, nth_error carriers (i + j) = Some n /\ e_find e n (g_str g (key n "client-id")) = Some ac /\ as_set e g n ac f1)
        | _ => select (would_be e g m) phone (S i) (map (option_map (view m)) rest) = Panic
        end).
      { intros y Y1 Y2. specialize (IH (pre ++ [y])%list). rewrite app_length in IH. cbn [length] in IH, Lp.
        specialize (IH ltac:(lia)). replace (length pre + 1)%nat with (S i) in IH by (unfold i; lia).
        rewrite <- app_assoc in IH. cbn [app] in IH.
        destruct (snd (select_loop e g lowx m phone (length rest) (S i) (pre ++ y :: rest))) as [[l' f]| |]; auto.
        destruct IH as (rest' & A & B & C & D & F). exists rest'. rewrite <- app_assoc in A. cbn [app] in A.
        split; [exact A|]. split; [exact B|]. split; [exact C|]. split.
        - intros [|j] f0 H; cbn [nth_error] in *; [f_equal; apply Y1; congruence|apply D; exact H].
        - intros [|j] f1 H H1; cbn [nth_error] in *.
          + rewrite Nat.add_0_r. apply Y2; congruence.
          + replace (i + S j)%nat with (S i + j)%nat by lia. apply (F j f1 H H1). }
      cbn [length select_loop map select]. rewrite Nx. destruct x as [f0|]; cbn [option_map].
      + (* already there *)
        assert (V : view m f0 = option_map m (f_regex f0)) by reflexivity. rewrite V.
        destruct (f_regex f0) as [r|] eqn:Fr; cbn [option_map snd] in *; [|reflexivity].
        destruct (m r phone) eqn:M; cbn [snd].
        * exists (Some f0 :: rest). split; [reflexivity|]. split; [reflexivity|]. split.
          -- exists (Some i). cbn [map option_map]. rewrite V. split; [reflexivity|].
             split; [|discriminate]. unfold i. rewrite nth_error_app2, Nat.sub_diag by lia. reflexivity.
          -- split; [auto|]. intros j f1 H H1. rewrite H in H1. discriminate.
        * specialize (K (Some f0) ltac:(auto) ltac:(intros; discriminate)).
          destruct (select_loop e g lowx m phone (length rest) (S i) (pre ++ Some f0 :: rest)) as [a2 r2]. cbn [snd] in *.
          destruct r2 as [[l' f]| |]; [|rewrite K; reflexivity|rewrite K; reflexivity].
          destruct K as (rest' & A & B & (o & C1 & C2) & D & F). exists (Some f0 :: rest').
          split; [exact A|]. split; [cbn [length]; lia|]. split; [|auto].
          exists o. rewrite C1. cbn [bind map option_map]. rewrite V. auto.
      + (* to be set up *)
        assert (WB : would_be e g m i = match e_find e n (g_str g (key n "client-id")) with
              | Some _ => Some (option_map m (e_compile e (g_str g (key n "segment")))) | None => None end)
          by (unfold would_be; rewrite Hc; reflexivity).
        rewrite WB.
        assert (Nn : nth_error (pre ++ None :: rest) i = Some None) by (unfold i; rewrite nth_error_app2, Nat.sub_diag by lia; reflexivity).
        specialize (AU n (nth_error_In _ _ Hc)). rewrite HS.
        destruct (e_find e n (g_str g (key n "client-id"))) as [ac|] eqn:Fa.
        * destruct (C102_set_up_partial e g lowx n i n ac _ Hc (own_name lowx i n Hc) Nn Fa AU) as (l1 & f1 & E & AS & Ll & Hf & Ho).
          rewrite E.
          assert (E1 : l1 = (pre ++ Some f1 :: rest)%list).
          { unfold CreateSessionFactory in E. rewrite (named_lower _ _ _ _ Hc (own_name lowx i n Hc)), HI, Nx in E.
            assert (P : forall l2 f2, put (pre ++ None :: rest) i f2 = l2 -> nth_error l2 i = Some (Some f1) -> l2 = (pre ++ Some f1 :: rest)%list).
            { intros l2 f2 <- H. unfold put in *.
              assert (Q : (firstn i (pre ++ None :: rest) = pre /\ skipn (S i) (pre ++ None :: rest) = rest)%list).
              { unfold i. clear. split.
                - rewrite firstn_app, Nat.sub_diag, firstn_all, firstn_O, app_nil_r. reflexivity.
                - induction pre; cbn; auto. }
              destruct Q as [Q1 Q2]. rewrite Q1, Q2 in *. unfold i in H. rewrite nth_error_app2, Nat.sub_diag in H by lia.
              cbn in H. congruence. }
            destruct (e_find e n _) as [ac'|]; [|discriminate].
            destruct (_ <? _); [discriminate|].
            destruct (match e_dial e _ with Some _ => _ | None => _ end) as [done got].
            destruct got as [ss| |]; try discriminate. destruct (client_window _ _) as [w| |]; try discriminate.
            injection E as _ E2 _. eapply P; [exact E2|exact Hf]. }
          assert (Y2 : forall f2, @None fac = None -> Some f1 = Some f2 -> exists n ac, nth_error carriers i = Some n /\ e_find e n (g_str g (key n "client-id")) = Some ac /\ as_set e g n ac f2).
          { intros f2 _ H. injection H as <-. exists n, ac. split; [exact Hc|split; [exact Fa|exact AS]]. }
          destruct AS as (As1 & As2 & As3 & As4 & As5).
          rewrite <- As4.
          assert (V : view m f1 = option_map m (f_regex f1)) by reflexivity.
          destruct (f_regex f1) as [r|] eqn:Fr; cbn [option_map snd] in *; [|reflexivity].
          destruct (m r phone) eqn:M; cbn [snd].
          -- exists (Some f1 :: rest). split; [exact E1|]. split; [reflexivity|]. split.
             ++ exists (Some i). cbn [map option_map]. rewrite V. split; [reflexivity|].
                split; [exact Hf|discriminate].
             ++ split; [intros [|j] f0 H; cbn in *; [discriminate|auto]|].
                intros [|j] f2 H H1; cbn [nth_error] in *; [rewrite Nat.add_0_r; apply Y2; congruence|rewrite H in H1; discriminate].
          -- specialize (K (Some f1) ltac:(discriminate) Y2). rewrite E1.
             destruct (select_loop e g lowx m phone (length rest) (S i) (pre ++ Some f1 :: rest)) as [a2 r2]. cbn [snd] in *.
             destruct r2 as [[l' f]| |]; [|rewrite K; reflexivity|rewrite K; reflexivity].
             destruct K as (rest' & A & B & (o & C1 & C2) & D & F). exists (Some f1 :: rest').
             split; [exact A|]. split; [cbn [length]; lia|]. split; [|auto].
             exists o. rewrite C1. cbn [bind map option_map]. rewrite V. auto.
        * rewrite (C102_no_account e g lowx n i n _ Hc (own_name lowx i n Hc) Nn Fa).
          specialize (K None ltac:(discriminate) ltac:(discriminate)).
          destruct (select_loop e g lowx m phone (length rest) (S i) (pre ++ None :: rest)) as [a2 r2]. cbn [snd] in *.
          destruct r2 as [[l' f]| |]; [|rewrite K; reflexivity|rewrite K; reflexivity].
          destruct K as (rest' & A & B & (o & C1 & C2) & D & F). exists (None :: rest').
          split; [exact A|]. split; [cbn [length]; lia|]. split; [|auto].
          exists o. rewrite C1. cbn [bind map option_map]. auto. }
  specialize (G l [] ltac:(cbn; lia)). cbn [length app] in G. unfold SelectSession. rewrite L3 in G.
  destruct (snd (select_loop e g lowx m phone 3 0 l)) as [[l' f]| |]; auto.
  destruct G as (rest' & -> & A & B & C & D). cbn [app Nat.add] in *. split; [lia|]. auto.
Qed.
End Thms.

(** ** A case: CMPP is set up under the name "CMPP"; the settings of the other carriers are not looked at. *)
Definition demo_settings : settings :=
  Settings (fun k => if list_eq_dec Z.eq_dec k (key (codes "cmpp") "client-id") then codes "123456"
                     else if list_eq_dec Z.eq_dec k (key (codes "cmpp") "address") then codes "host:9000"
                     else if list_eq_dec Z.eq_dec k (key (codes "cmpp") "segment") then codes "^138" else [])
           (fun k => if list_eq_dec Z.eq_dec k (key (codes "cmpp") "max-conns") then 2
                     else if list_eq_dec Z.eq_dec k (key (codes "cmpp") "mt-window-size") then 30
                     else if list_eq_dec Z.eq_dec k (key (codes "cmpp") "throughput") then 500 else 0).
Definition demo_env : env Z Z Z bytes :=
  Env (fun n cid => if list_eq_dec Z.eq_dec cid (codes "123456") then Some 7 else None)
      (fun s => Some s) (fun a => Some 5) (fun n ac c => Ok (Some (ac * 100 + c))) (2 ^ 45).
Example C102_case : nth_error carriers 0 = Some (codes "cmpp") /\ is_name (fun c => c) (codes "CmPP") (codes "cmpp") /\
  usable demo_env demo_settings (codes "cmpp") 7 /\ all_usable demo_env demo_settings /\
  (exists f, CreateSessionFactory demo_env demo_settings (fun c => c) (codes "CmPP") [None; None; None]
    = (work_for demo_env demo_settings (codes "cmpp") 7, Ok ([Some f; None; None], Some f)) /\
    f_sessions f = [705] /\ f_window f = 30 /\ f_limiter f = NewLimiter (Every 2000000) 30 /\ f_addr f = codes "host:9000") /\
  CreateSessionFactory demo_env demo_settings (fun c => c) (codes "Sgip") [None; None; None] = ([AFind (codes "sgip") []], Ok ([None; None; None], None)) /\
  CreateSessionFactory demo_env demo_settings (fun c => c) (codes "cmpp2") [None; None; None] = ([], Panic).
Proof.
  split; [reflexivity|]. split.
  { exists [67; 109; 80; 80]. change (codes "CmPP") with [67; 109; 80; 80]. change (codes "cmpp") with [99; 109; 112; 112].
    split; [repeat (apply (utf8_cons _ _ [_] _); [constructor; lia|]); constructor|].
    repeat (apply Forall2_cons; [unfold lowers; lia|]). apply Forall2_nil. }
  assert (U0 : usable demo_env demo_settings (codes "cmpp") 7).
  { split; [vm_compute; discriminate|]. split; [vm_compute; discriminate|]. intros c _. eexists. reflexivity. }
  split; [exact U0|]. split.
  { intros n [<-|[<-|[<-|[]]]]; [exact U0| |]; vm_compute; exact Logic.I. }
  split; [eexists; split; [vm_compute; reflexivity|vm_compute; auto]|].
  split; vm_compute; reflexivity.
Qed.
(** The same settings where the expression cannot be compiled: set up, then every choice breaks off;
    and with the window size negated: logged in, then broken off. *)
Example C102_refuted_case :
  let bad : env Z Z Z bytes := Env (e_find demo_env) (fun _ => None) (e_dial demo_env) (e_login demo_env) (e_room demo_env) in
  let neg := Settings (g_str demo_settings) (fun k => if list_eq_dec Z.eq_dec k (key (codes "cmpp") "mt-window-size") then -30 else g_int demo_settings k) in
  usable bad demo_settings (codes "cmpp") 7 /\
  (exists l' f, snd (CreateSessionFactory bad demo_settings (fun c => c) (codes "cmpp") [None; None; None]) = Ok (l', Some f) /\
     snd (SelectSession bad demo_settings (fun c => c) (fun r p => true) (codes "13800001111") l') = Panic) /\
  CreateSessionFactory demo_env neg (fun c => c) (codes "cmpp") [None; None; None]
    = ([AFind (codes "cmpp") (codes "123456"); ADial (codes "host:9000"); ALogin (codes "cmpp") 7 5], Panic).
Proof.
  cbv zeta. split.
  { split; [vm_compute; discriminate|]. split; [vm_compute; discriminate|]. intros c _. eexists. reflexivity. }
  split; [eexists _, _; split; vm_compute; reflexivity|]. vm_compute. reflexivity.
Qed.
Print Assumptions C102_set_up_partial.
Print Assumptions C102_once.
Print Assumptions C102_no_account.
Print Assumptions C102_own_section.
Print Assumptions C102_unknown.
Print Assumptions C102_refuted.
Print Assumptions C102_refuted_window.
Print Assumptions C102_choice.
