(** * PropDesk: property C128 (looking up accounts while the store is reloaded).
    Model: the lock of the stores with its users statement by statement: auth/yaml_store.go:26-71 (Load and unmarshal),
    auth/mongo_store.go:20-49 (Load), FindByCid of both.  AuthModel has a Load as one step; here any number of lookups
    come in between.  The lookups are those of the logins and submits (msc_server/utils.go:9-17). *)
From Coq Require Import Sorted.
From Verif Require Import Base OptionsModel ClientModel ClientProofs ServerProofs AuthModel PropAuth.

(** ** Model *)
(** Where the goroutine that reloads is.  File store: [LFiles r] before the next of the files [r] (read without the
    lock), [LWants] at the Lock of unmarshal, [LIn] in it, [LOut] at its Unlock.  Database: [DWants] after Find,
    [DIn] in the loop over the cursor, [DOut] at the deferred Unlock. *)
Inductive loader := LIdle | LFiles (r : list dirent) | LWants (id : bytes) (d : option authconf) (r : list dirent)
  | LIn (id : bytes) (d : option authconf) (r : list dirent) | LOut (r : list dirent) | DWants | DIn | DOut.
Inductive asker := AIdle | AWants (isp cid : bytes) | AHas (isp cid : bytes) | AGot (isp cid : bytes) (a : option authconf).
Inductive keeper := Free | Loads | Asks (t : nat).
Record desk := Desk { k_cache : cache; k_lock : keeper; k_load : loader; k_ask : nat -> asker; k_log : list (bytes * bytes * option authconf); k_up : bool }.
Inductive kevent :=
| KReload (files : list dirent)      (* the ticker: Load of the file store, with what the directory holds *)
| KFind (ok : bool)                  (* the ticker: Load of the database store, Find has returned *)
| KLoad                              (* the next statement of Load *)
| KDoc (x : option (option authconf)) (* cursor.Next returns: no more (or the time is up), or a document that decodes or not *)
| KAsk (t : nat) (isp cid : bytes)   (* a goroutine calls FindByCid *)
| KMove (t : nat).                   (* its next statement *)
Definition set_ask (f : nat -> asker) (t : nat) (a : asker) : nat -> asker := fun x => if Nat.eqb x t then a else f x.
Definition at_load (s : desk) (l : loader) : desk := Desk (k_cache s) (k_lock s) l (k_ask s) (k_log s) (k_up s).
Definition take (s : desk) (l : loader) : desk := match k_lock s with Free => Desk (k_cache s) Loads l (k_ask s) (k_log s) (k_up s) | _ => s end.
Definition give (s : desk) (l : loader) : desk := Desk (k_cache s) Free l (k_ask s) (k_log s) (k_up s).
Definition fill (s : desk) (c : cache) (l : loader) : desk := Desk c (k_lock s) l (k_ask s) (k_log s) (k_up s).
Definition kstep (s : desk) (e : kevent) : desk :=
  if negb (k_up s) then s else
  match e with
  | KReload files => match k_load s with LIdle => at_load s (LFiles files) | _ => s end
  | KFind ok => match k_load s with LIdle => if ok then at_load s DWants else s | _ => s end
  | KLoad =>
    match k_load s with
    | LFiles [] => at_load s LIdle
    | LFiles (f :: r) => if de_dir f then at_load s (LFiles r) else match file_key (de_name f) with [] => at_load s (LFiles r) | key => at_load s (LWants (ToLower key) (de_data f) r) end
    | LWants id d r => take s (LIn id d r)
    | LIn id d r => match unmarshal d id (k_cache s) with Ok c => fill s c (LOut r) | _ => Desk (k_cache s) (k_lock s) (k_load s) (k_ask s) (k_log s) false end
    | LOut r => give s (LFiles r)
    | DWants => take s DIn
    | DOut => give s LIdle
    | _ => s
    end
  | KDoc x =>
    match k_load s with
    | DIn => match x with
             | Some (Some d) => fill s (store_at beqb (ac_ISP d ++ [95] ++ ac_ClientId d) d (k_cache s)) DIn
             | _ => at_load s DOut
             end
    | _ => s
    end
  | KAsk t isp cid => match k_ask s t with AIdle => Desk (k_cache s) (k_lock s) (k_load s) (set_ask (k_ask s) t (AWants isp cid)) (k_log s) (k_up s) | _ => s end
  | KMove t =>
    match k_ask s t with
    | AWants isp cid => match k_lock s with Free => Desk (k_cache s) (Asks t) (k_load s) (set_ask (k_ask s) t (AHas isp cid)) (k_log s) (k_up s) | _ => s end
    | AHas isp cid => Desk (k_cache s) (k_lock s) (k_load s) (set_ask (k_ask s) t (AGot isp cid (FindByCid (k_cache s) isp cid))) (k_log s) (k_up s)
    | AGot isp cid a => Desk (k_cache s) Free (k_load s) (set_ask (k_ask s) t AIdle) (k_log s ++ [(isp, cid, a)]) (k_up s)
    | AIdle => s
    end
  end.
Definition krun (s : desk) (es : list kevent) : desk := fold_left kstep es s.
(** The store with the accounts [c], nobody at it. *)
Definition resting (c : cache) (l : loader) : desk := Desk c Free l (fun _ => AIdle) [] true.

(** ** Specification *)
Definition reloads (e : kevent) : bool := match e with KReload _ | KFind _ => true | _ => false end.
Definition arrives (e : kevent) : bool := match e with KDoc _ => true | _ => false end.
Fixpoint same_octets (a b : bytes) : bool := match a, b with [], [] => true | x :: a, y :: b => (x =? y) && same_octets a b | _, _ => false end.
(** What the lookups of a client were told, in order. *)
Definition told (isp cid : bytes) (log : list (bytes * bytes * option authconf)) : list (option authconf) :=
  map snd (filter (fun x => same_octets (fst (fst x)) isp && same_octets (snd (fst x)) cid) log).
(** Its one file that can be read. *)
Definition one_file (files : list dirent) (id : bytes) (a : authconf) : Prop :=
  exists pre f post d, files = pre ++ f :: post /\ named f id /\ de_data f = Some d /\ the_entry id d a /\ forall g, In g (pre ++ post) -> named g id -> de_data g = None.
Definition docs_in (es : list kevent) : list (option authconf) := flat_map (fun e => match e with KDoc (Some x) => [x] | _ => [] end) es.

(** ** Proofs *)
Lemma same_octets_iff a : forall b, same_octets a b = true <-> a = b.
Proof. induction a as [|x a IH]; intros [|y b]; cbn; try (split; congruence). rewrite andb_true_iff, IH, Z.eqb_eq. split; [intros [-> ->]; reflexivity|intros [= -> ->]; auto]. Qed.
Definition outside (a : asker) : Prop := match a with AIdle | AWants _ _ => True | _ => False end.
Definition inside_load (l : loader) : Prop := match l with LIn _ _ _ | LOut _ | DIn | DOut => True | _ => False end.
(** One at the store at a time; who has read holds what the store still says. *)
Definition tidy (s : desk) : Prop :=
  (k_lock s = Loads <-> inside_load (k_load s)) /\
  (forall t, k_lock s = Asks t <-> ~ outside (k_ask s t)) /\
  (forall t isp cid a, k_ask s t = AGot isp cid a -> a = FindByCid (k_cache s) isp cid).
Lemma tidy_rest c l : ~ inside_load l -> tidy (resting c l).
Proof. intros H. split; [|split]; cbn; [split; [discriminate|contradiction]|intros t; split; [discriminate|intros X; exfalso; apply X; exact I]|discriminate]. Qed.
Lemma set_same f t a : set_ask f t a t = a.
Proof. unfold set_ask. rewrite Nat.eqb_refl. reflexivity. Qed.
Lemma set_other f t a x : x <> t -> set_ask f t a x = f x.
Proof. intros H. unfold set_ask. apply Nat.eqb_neq in H. rewrite H. reflexivity. Qed.
Lemma tidy_at s l : tidy s -> (inside_load (k_load s) <-> inside_load l) -> tidy (at_load s l).
Proof. intros (A & B & C) H. split; [|split; [exact B|exact C]]. cbn. rewrite A. exact H. Qed.
Lemma tidy_take s l : tidy s -> ~ inside_load (k_load s) -> inside_load l -> tidy (take s l).
Proof.
  intros (A & B & C) N H. unfold take. destruct (k_lock s) eqn:L; [|split; [rewrite L; exact A|split; [intros t; rewrite L; apply B|exact C]]|split; [rewrite L; exact A|split; [intros u; rewrite L; apply B|exact C]]].
  split; [cbn; split; auto|]. split; [|exact C]. cbn. intros t. split; [discriminate|]. intros X. apply B in X. discriminate X.
Qed.
Lemma tidy_give s l : tidy s -> inside_load (k_load s) -> ~ inside_load l -> tidy (give s l).
Proof.
  intros (A & B & C) N H. apply A in N. split; [cbn; split; [discriminate|contradiction]|]. split; [|exact C]. cbn. intros t. split; [discriminate|]. intros X. apply B in X. congruence.
Qed.
Lemma tidy_fill s c l : tidy s -> inside_load (k_load s) -> inside_load l -> tidy (fill s c l).
Proof.
  intros (A & B & C) N H. apply A in N. split; [cbn; rewrite N; split; auto|]. split; [exact B|]. cbn. intros t isp cid a E. exfalso.
  assert (X : k_lock s = Asks t) by (apply B; rewrite E; auto). congruence.
Qed.
Lemma tidy_step s e : tidy s -> tidy (kstep s e).
Proof.
  intros T. unfold kstep. destruct (k_up s) eqn:U; [|exact T]. cbn [negb]. destruct e as [files|ok| |x|t isp cid|t].
  - destruct (k_load s) eqn:L; try exact T. apply tidy_at; [exact T|]. rewrite L. cbn. tauto.
  - destruct (k_load s) eqn:L; try exact T. destruct ok; [|exact T]. apply tidy_at; [exact T|]. rewrite L. cbn. tauto.
  - destruct (k_load s) as [|[|f r]|id d r|id d r|r| | |] eqn:L; try exact T.
    + apply tidy_at; [exact T|]. rewrite L. cbn. tauto.
    + destruct (de_dir f); [apply tidy_at; [exact T|]; rewrite L; cbn; tauto|]. destruct (file_key (de_name f)); (apply tidy_at; [exact T|]; rewrite L; cbn; tauto).
    + apply tidy_take; [exact T|rewrite L; cbn; tauto|exact I].
    + destruct (unmarshal d id (k_cache s)) as [c| |].
      * apply tidy_fill; [exact T|rewrite L; exact I|exact I].
      * rewrite <- L. exact T.
      * rewrite <- L. exact T.
    + apply tidy_give; [exact T|rewrite L; exact I|cbn; tauto].
    + apply tidy_take; [exact T|rewrite L; cbn; tauto|exact I].
    + apply tidy_give; [exact T|rewrite L; exact I|cbn; tauto].
  - destruct (k_load s) eqn:L; try exact T. destruct x as [[d|]|]; [apply tidy_fill; [exact T|rewrite L; exact I|exact I]| |]; (apply tidy_at; [exact T|]; rewrite L; cbn; tauto).
  - destruct (k_ask s t) eqn:K; try exact T. destruct T as (A & B & C). split; [exact A|]. split; cbn.
    + intros u. destruct (Nat.eq_dec u t) as [->|N]; [rewrite set_same|rewrite set_other by exact N; apply B]. rewrite B, K. cbn. tauto.
    + intros u isp' cid' a. destruct (Nat.eq_dec u t) as [->|N]; [rewrite set_same; discriminate|rewrite set_other by exact N; apply C].
  - destruct (k_ask s t) as [|isp cid|isp cid|isp cid a] eqn:K; try exact T; destruct T as (A & B & C).
    + destruct (k_lock s) eqn:Lk; [|split; [rewrite Lk; exact A|split; [intros u; rewrite Lk; apply B|exact C]]|split; [rewrite Lk; exact A|split; [intros u; rewrite Lk; apply B|exact C]]].
      split; [cbn; rewrite <- A; split; discriminate|]. split; cbn.
      * intros u. destruct (Nat.eq_dec u t) as [->|N]; [rewrite set_same; cbn; tauto|rewrite set_other by exact N]. split; [congruence|]. intros X. apply B in X. discriminate X.
      * intros u isp' cid' a. destruct (Nat.eq_dec u t) as [->|N]; [rewrite set_same; discriminate|rewrite set_other by exact N; apply C].
    + split; [exact A|]. split; cbn.
      * intros u. destruct (Nat.eq_dec u t) as [->|N]; [rewrite set_same, B, K; cbn; tauto|rewrite set_other by exact N; apply B].
      * intros u isp' cid' a. destruct (Nat.eq_dec u t) as [->|N]; [rewrite set_same; intros [= <- <- <-]; reflexivity|rewrite set_other by exact N; apply C].
    + assert (Lt : k_lock s = Asks t) by (apply B; rewrite K; auto). split; [cbn; rewrite <- A, Lt; split; discriminate|]. split; cbn.
      * intros u. destruct (Nat.eq_dec u t) as [->|N]; [rewrite set_same; cbn; split; [discriminate|tauto]|rewrite set_other by exact N]. split; [discriminate|]. intros X. apply B in X. congruence.
      * intros u isp' cid' b. destruct (Nat.eq_dec u t) as [->|N]; [rewrite set_same; discriminate|rewrite set_other by exact N; apply C].
Qed.
Lemma tidy_run es : forall s, tidy s -> tidy (krun s es).
Proof. induction es as [|e es IH]; intros s T; [exact T|]. apply IH. apply tidy_step. exact T. Qed.
(** What is logged is what the store says at that moment, and logging does not change the store. *)
Lemma log_step s e : tidy s -> k_log (kstep s e) = k_log s \/
  (exists isp cid, k_log (kstep s e) = k_log s ++ [(isp, cid, FindByCid (k_cache s) isp cid)] /\ k_cache (kstep s e) = k_cache s /\ k_load (kstep s e) = k_load s).
Proof.
  intros (_ & _ & C). unfold kstep. destruct (k_up s); [|left; reflexivity]. cbn [negb]. destruct e as [files|ok| |x|t isp cid|t].
  - left. destruct (k_load s); reflexivity.
  - left. destruct (k_load s); try reflexivity. destruct ok; reflexivity.
  - left. destruct (k_load s) as [|[|f r]|id d r|id d r|r| | |]; try reflexivity; try (unfold take; destruct (k_lock s); reflexivity).
    + destruct (de_dir f); [reflexivity|]. destruct (file_key (de_name f)); reflexivity.
    + destruct (unmarshal d id (k_cache s)); reflexivity.
  - left. destruct (k_load s); try reflexivity. destruct x as [[d|]|]; reflexivity.
  - left. destruct (k_ask s t); reflexivity.
  - destruct (k_ask s t) as [|isp cid|isp cid|isp cid a] eqn:K; [left; reflexivity|left; destruct (k_lock s); reflexivity|left; reflexivity|]. right. exists isp, cid. rewrite (C _ _ _ _ K). auto.
Qed.
(** *** Files *)
Lemma yaml_Load_app a : forall b c, yaml_Load (a ++ b) c = (c1 <- yaml_Load a c ;; yaml_Load b c1).
Proof.
  induction a as [|f a IH]; intros b c; [reflexivity|]. cbn [app yaml_Load]. destruct (de_dir f); [apply IH|]. destruct (file_key (de_name f)); [apply IH|].
  destruct (unmarshal (de_data f) _ c) as [c1| |]; cbn [bind]; [apply IH|reflexivity|reflexivity].
Qed.
Lemma firstn_next {A} (l : list A) k x r : skipn k l = x :: r -> firstn (S k) l = firstn k l ++ [x] /\ skipn (S k) l = r /\ (S k <= length l)%nat.
Proof.
  revert l. induction k as [|k IH]; intros [|y l] H; cbn in H; try discriminate H.
  - injection H as -> ->. cbn. split; [reflexivity|]. split; [reflexivity|lia].
  - destruct (IH l H) as (A1 & B & C). split; [|split; [exact B|cbn; lia]]. cbn [firstn] in *. rewrite A1. reflexivity.
Qed.
Definition stage (files : list dirent) (c0 : cache) (s : desk) (k : nat) : Prop :=
  (k <= length files)%nat /\ yaml_Load (firstn k files) c0 = Ok (k_cache s) /\ k_up s = true /\
  match k_load s with
  | LFiles r | LOut r => r = skipn k files
  | LWants id d r | LIn id d r => exists f, skipn k files = f :: r /\ de_dir f = false /\ file_key (de_name f) <> [] /\ id = ToLower (file_key (de_name f)) /\ d = de_data f
  | LIdle => k = length files
  | _ => False
  end.
Lemma stage_same files c0 s s' k : stage files c0 s k -> k_cache s' = k_cache s -> k_load s' = k_load s -> k_up s' = k_up s -> stage files c0 s' k.
Proof. unfold stage. intros H -> -> ->. exact H. Qed.
Lemma stage_step files c0 c s k e : yaml_Load files c0 = Ok c -> stage files c0 s k -> reloads e = false -> exists k', (k <= k')%nat /\ stage files c0 (kstep s e) k'.
Proof.
  intros Y S R. pose proof S as (L & C & U & P). unfold kstep. rewrite U. cbn [negb]. destruct e as [fs|ok| |x|t isp cid|t]; try discriminate R.
  - destruct (k_load s) as [|[|f r]|id d r|id d r|r| | |] eqn:Ld; try contradiction; try (exists k; split; [lia|exact S]).
    + exists k. split; [lia|]. split; [exact L|]. split; [exact C|]. split; [exact U|]. cbn. pose proof (f_equal (@length _) P) as X. rewrite skipn_length in X. cbn in X. lia.
    + symmetry in P. destruct (firstn_next _ _ _ _ P) as (F & Sk & Ln). destruct (de_dir f) eqn:D.
      * exists (Datatypes.S k). split; [lia|]. split; [exact Ln|]. split; [rewrite F, yaml_Load_app, C; cbn [bind yaml_Load]; rewrite D; reflexivity|]. split; [exact U|]. cbn. auto.
      * destruct (file_key (de_name f)) as [|k0 kr] eqn:K.
        -- exists (Datatypes.S k). split; [lia|]. split; [exact Ln|]. split; [rewrite F, yaml_Load_app, C; cbn [bind yaml_Load]; rewrite D, K; reflexivity|]. split; [exact U|]. cbn. auto.
        -- exists k. split; [lia|]. split; [exact L|]. split; [exact C|]. split; [exact U|]. cbn [at_load k_load]. exists f. rewrite K. split; [exact P|]. split; [exact D|]. split; [discriminate|]. auto.
    + exists k. split; [lia|]. unfold take. destruct (k_lock s); try exact S. split; [exact L|]. split; [exact C|]. split; [exact U|]. exact P.
    + destruct P as (f & Sk & D & K & -> & ->). destruct (firstn_next _ _ _ _ Sk) as (F & Sk' & Ln).
      assert (Z : exists c1, unmarshal (de_data f) (ToLower (file_key (de_name f))) (k_cache s) = Ok c1 /\ yaml_Load [f] (k_cache s) = Ok c1).
      { pose proof Y as Y'. rewrite <- (firstn_skipn k files), Sk, yaml_Load_app, C in Y'. cbn [bind] in Y'. cbn [yaml_Load] in Y' |- *. rewrite D in *. destruct (file_key (de_name f)) as [|k0 kr]; [congruence|].
        destruct (unmarshal (de_data f) (ToLower (k0 :: kr)) (k_cache s)) as [c1| |]; cbn [bind] in Y'; [|discriminate Y'|discriminate Y']. exists c1. split; reflexivity. }
      destruct Z as (c1 & -> & Z). exists (Datatypes.S k). split; [lia|]. split; [exact Ln|]. split; [rewrite F, yaml_Load_app, C; exact Z|]. split; [exact U|]. cbn. auto.
    + exists k. split; [lia|]. split; [exact L|]. split; [exact C|]. split; [exact U|]. exact P.
  - exists k. split; [lia|]. destruct (k_load s) eqn:Ld; try contradiction; exact S.
  - exists k. split; [lia|]. destruct (k_ask s t); try exact S. apply (stage_same _ _ _ _ _ S); first [reflexivity|symmetry; exact U].
  - exists k. split; [lia|]. destruct (k_ask s t); try exact S; [destruct (k_lock s); try exact S| |]; (apply (stage_same _ _ _ _ _ S); first [reflexivity|symmetry; exact U]).
Qed.
Definition says (c : cache) (x : bytes * bytes * option authconf) : Prop := snd x = FindByCid c (fst (fst x)) (snd (fst x)).
Lemma sorted_snoc ks k : StronglySorted le ks -> Forall (fun x => (x <= k)%nat) ks -> StronglySorted le (ks ++ [k]).
Proof. induction 1 as [|x ks Sx IH Fx]; intros F; cbn; [repeat constructor|]. inversion F; subst. constructor; [apply IH; assumption|]. apply Forall_app. split; [exact Fx|constructor; [assumption|constructor]]. Qed.
Lemma files_run files c0 c es : yaml_Load files c0 = Ok c -> forallb (fun e => negb (reloads e)) es = true ->
  let s := krun (resting c0 (LFiles files)) es in exists k ks, stage files c0 s k /\ StronglySorted le ks /\ Forall (fun x => (x <= k)%nat) ks /\
  Forall2 (fun n x => exists cn, yaml_Load (firstn n files) c0 = Ok cn /\ says cn x) ks (k_log s).
Proof.
  intros Y. induction es as [|e es IH] using rev_ind; intros P.
  - exists O, []. split; [split; [lia|]; split; [reflexivity|]; split; reflexivity|]. repeat constructor.
  - rewrite forallb_app in P. apply andb_true_iff in P as [P1 P2]. cbn in P2. rewrite andb_true_r in P2. apply negb_true_iff in P2. destruct (IH P1) as (k & ks & S & So & F & G). clear IH.
    cbv zeta. unfold krun in *. rewrite fold_left_app. cbn [fold_left]. set (s := fold_left kstep es (resting c0 (LFiles files))) in *.
    assert (T : tidy s) by (apply (tidy_run es); apply tidy_rest; cbn; tauto). destruct (stage_step _ _ _ _ _ e Y S P2) as (k' & Lk & S').
    assert (F' : Forall (fun x => (x <= k')%nat) ks) by (eapply Forall_impl; [|exact F]; cbn; lia).
    destruct (log_step s e T) as [E|(isp & cid & E & _)]; rewrite E.
    + exists k', ks. auto.
    + exists k', (ks ++ [k]). split; [exact S'|]. split; [apply sorted_snoc; assumption|]. split; [apply Forall_app; split; [exact F'|repeat constructor; exact Lk]|].
      apply Forall2_app; [exact G|]. constructor; [|constructor]. exists (k_cache s). split; [apply S|reflexivity].
Qed.
Lemma told_keys {A B} (Rel : nat -> B -> Prop) (keep : B -> bool) (f : B -> A) ks l : Forall2 Rel ks l -> StronglySorted le ks ->
  exists ks', StronglySorted le ks' /\ (forall k, In k ks' -> In k ks) /\ Forall2 (fun k a => exists x, Rel k x /\ keep x = true /\ f x = a) ks' (map f (filter keep l)).
Proof.
  induction 1 as [|k x ks l Rx G IH]; intros S; [exists []; repeat constructor; auto|]. inversion S as [|? ? S1 F1]; subst. destruct (IH S1) as (ks' & S' & I' & G'). cbn [filter]. destruct (keep x) eqn:K.
  - exists (k :: ks'). split; [constructor; [exact S'|]; rewrite Forall_forall in *; auto|]. split; [intros n [<-|N]; [left; reflexivity|right; auto]|]. cbn [map]. constructor; [eauto|exact G'].
  - exists ks'. split; [exact S'|]. split; [intros n N; right; auto|exact G'].
Qed.
Lemma steps {A} (old new : A) (p : nat) ks l : StronglySorted le ks -> Forall2 (fun k a => a = if Nat.leb k p then old else new) ks l -> exists n m, l = repeat old n ++ repeat new m.
Proof.
  intros S G. induction G as [|k a ks l E G IH]; [exists O, O; reflexivity|]. inversion S as [|? ? S1 F1]; subst. destruct (Nat.leb_spec k p) as [Q|Q].
  - destruct (IH S1) as (n & m & ->). exists (Datatypes.S n), m. reflexivity.
  - exists O, (Datatypes.S (length l)). cbn. f_equal. clear IH S S1. induction G as [|j b ks l E G IH]; [reflexivity|]. inversion F1; subst. cbn. destruct (Nat.leb_spec j p); [lia|]. f_equal. apply IH. assumption.
Qed.
(** One reload of the file store, any number of lookups at any moments. *)
Theorem C128_files_partial : forall files c0 c es isp p cid, yaml_Load files c0 = Ok c -> forallb (fun e => negb (reloads e)) es = true -> lowered isp p ->
  let s := krun (resting c0 (LFiles files)) es in k_up s = true /\
  (forall a, one_file files (p ++ [95] ++ cid) a -> exists n m, told isp cid (k_log s) = repeat (FindByCid c0 isp cid) n ++ repeat (Some a) m) /\
  (silent files (p ++ [95] ++ cid) -> exists n, told isp cid (k_log s) = repeat (FindByCid c0 isp cid) n) /\
  (k_load s = LIdle -> k_cache s = c).
Proof.
  intros files c0 c es isp p cid Y P Lw s. destruct (files_run files c0 c es Y P) as (k & ks & S & So & F & G). fold s in S, G. split; [apply S|].
  destruct (told_keys _ (fun x => same_octets (fst (fst x)) isp && same_octets (snd (fst x)) cid) snd ks (k_log s) G So) as (ks' & So' & _ & G'). fold (told isp cid (k_log s)) in G'.
  assert (G2 : Forall2 (fun n a => exists cn, yaml_Load (firstn n files) c0 = Ok cn /\ a = FindByCid cn isp cid) ks' (told isp cid (k_log s))).
  { clear -G'. induction G' as [|n a ks' l (x & (cn & Yn & Sx) & K & <-) _ IH]; constructor; [|exact IH]. exists cn. split; [exact Yn|]. apply andb_true_iff in K as [K1 K2]. apply same_octets_iff in K1, K2. unfold says in Sx. rewrite Sx, K1, K2. reflexivity. }
  clear G G'. split; [|split].
  - intros a (pre & f & post & d & -> & N & Dd & En & O). apply (steps _ _ (length pre) ks'); [exact So'|]. clear So'. induction G2 as [|n b ks' l (cn & Yn & ->) _ IH]; constructor; [|exact IH].
    destruct (C67_partial _ _ _ isp p cid Yn Lw) as [A B]. destruct (Nat.leb_spec n (length pre)) as [Q|Q].
    + apply B. intros g Hg Ng. rewrite firstn_app in Hg. replace (n - length pre)%nat with 0%nat in Hg by lia. cbn in Hg. rewrite app_nil_r in Hg. apply (O g); [|exact Ng]. apply in_or_app. left. rewrite <- (firstn_skipn n pre). apply in_or_app. auto.
    + apply A. rewrite firstn_app. destruct (n - length pre)%nat as [|j] eqn:J; [lia|]. rewrite firstn_all2 by lia. cbn [firstn]. exists pre, f, (firstn j post), d. split; [reflexivity|]. split; [exact N|]. split; [exact Dd|]. split; [exact En|].
      intros g Hg Ng. apply (O g); [|exact Ng]. apply in_or_app. right. rewrite <- (firstn_skipn j post). apply in_or_app. auto.
  - intros Q. exists (length (told isp cid (k_log s))). clear So'. induction G2 as [|n b ks' l (cn & Yn & ->) _ IH]; [reflexivity|]. cbn. f_equal; [|exact IH].
    destruct (C67_partial _ _ _ isp p cid Yn Lw) as [_ B]. apply B. intros g Hg. apply Q. rewrite <- (firstn_skipn n files). apply in_or_app. auto.
  - intros E. destruct S as (_ & C & _ & X). rewrite E in X. subst k. rewrite firstn_all in C. congruence.
Qed.
(** *** Database *)
Definition db_at (c0 : cache) (s : desk) (docs : list (option authconf)) : Prop :=
  k_up s = true /\
  match k_load s with
  | DWants => docs = [] /\ k_cache s = c0 /\ Forall (says c0) (k_log s)
  | DIn => (forall more, mongo_docs (docs ++ more) c0 = mongo_docs more (k_cache s)) /\ Forall (says c0) (k_log s)
  | DOut => k_cache s = mongo_docs docs c0 /\ Forall (says c0) (k_log s)
  | LIdle => k_cache s = mongo_docs docs c0 /\ exists l1 l2, k_log s = l1 ++ l2 /\ Forall (says c0) l1 /\ Forall (says (mongo_docs docs c0)) l2
  | _ => False
  end.
Lemma db_same c0 s s' docs : db_at c0 s docs -> k_cache s' = k_cache s -> k_load s' = k_load s -> k_up s' = k_up s -> k_log s' = k_log s -> db_at c0 s' docs.
Proof. unfold db_at. intros H -> -> -> ->. exact H. Qed.
Lemma db_step c0 s docs e : tidy s -> db_at c0 s docs -> reloads e = false -> exists more, db_at c0 (kstep s e) (docs ++ more) /\ incl more (docs_in [e]).
Proof.
  intros T S R. destruct S as [U S]. unfold kstep. rewrite U. cbn [negb]. assert (Same : forall s', db_at c0 s' docs -> exists more, db_at c0 s' (docs ++ more) /\ incl more (docs_in [e])) by (intros s' H; exists []; rewrite app_nil_r; split; [exact H|intros x []]).
  destruct e as [fs|ok| |x|t isp cid|t]; try discriminate R.
  - apply Same. destruct (k_load s) as [|fs|id d r|id d r|r| | |] eqn:L; try contradiction; try (split; [exact U|]; rewrite L; exact S).
    + unfold take. destruct (k_lock s); try (split; [exact U|]; rewrite L; exact S). split; [exact U|]. cbn. destruct S as (-> & -> & S). split; [reflexivity|exact S].
    + split; [exact U|]. cbn. destruct S as [C S]. split; [exact C|]. exists (k_log s), []. rewrite app_nil_r. auto.
  - destruct (k_load s) as [|fs|id d r|id d r|r| | |] eqn:L; try contradiction; try (apply Same; split; [exact U|]; rewrite L; exact S). destruct S as [M S]. destruct x as [[d|]|].
    + exists [Some d]. split; [|intros y Hy; exact Hy]. split; [exact U|]. cbn. split; [|exact S]. intros more. rewrite <- app_assoc. rewrite M. reflexivity.
    + exists [None]. split; [|intros y Hy; exact Hy]. split; [exact U|]. cbn. split; [|exact S]. rewrite M. reflexivity.
    + apply Same. split; [exact U|]. cbn. split; [|exact S]. specialize (M []). rewrite app_nil_r in M. symmetry. exact M.
  - apply Same. destruct (k_ask s t); try (split; assumption). apply (db_same c0 s); first [split; assumption|reflexivity|symmetry; exact U].
  - apply Same. destruct (k_ask s t) as [|isp cid|isp cid|isp cid a] eqn:K; [split; assumption|destruct (k_lock s); try (split; assumption); apply (db_same c0 s); first [split; assumption|reflexivity|symmetry; exact U]|apply (db_same c0 s); first [split; assumption|reflexivity|symmetry; exact U]|].
    destruct T as (A & B & C). assert (Lt : k_lock s = Asks t) by (apply B; rewrite K; auto). assert (NI : ~ inside_load (k_load s)) by (rewrite <- A, Lt; discriminate).
    assert (Sa : says (k_cache s) (isp, cid, a)) by (exact (C _ _ _ _ K)). split; [reflexivity|]. cbn [k_load k_cache k_log].
    destruct (k_load s) as [|fs|id d r|id d r|r| | |] eqn:L; try contradiction; try (exfalso; apply NI; exact I).
    + destruct S as (E & l1 & l2 & El & F1 & F2). split; [exact E|]. exists l1, (l2 ++ [(isp, cid, a)]). rewrite El, <- app_assoc. split; [reflexivity|]. split; [exact F1|]. apply Forall_app. split; [exact F2|]. constructor; [rewrite <- E; exact Sa|constructor].
    + destruct S as (E1 & E & F). split; [exact E1|]. split; [exact E|]. apply Forall_app. split; [exact F|]. constructor; [rewrite <- E; exact Sa|constructor].
Qed.
(** One reload of the database store: all lookups before some moment see the store before, all after it the store after
    the documents that came. *)
Theorem C128_db_partial : forall c0 es, forallb (fun e => negb (reloads e)) es = true ->
  let s := krun (resting c0 DWants) es in exists docs before after, incl docs (docs_in es) /\ k_log s = before ++ after /\
  (forall isp cid a, In (isp, cid, a) before -> a = FindByCid c0 isp cid) /\ (forall isp cid a, In (isp, cid, a) after -> a = FindByCid (mongo_Load true docs c0) isp cid) /\
  (k_load s = LIdle -> k_cache s = mongo_Load true docs c0) /\ k_up s = true.
Proof.
  intros c0 es P s. assert (H : exists docs, db_at c0 s docs /\ incl docs (docs_in es)).
  { subst s. induction es as [|e es IH] using rev_ind.
    - exists []. split; [repeat split; constructor|intros x []].
    - rewrite forallb_app in P. apply andb_true_iff in P as [P1 P2]. cbn in P2. rewrite andb_true_r in P2. apply negb_true_iff in P2. destruct (IH P1) as (docs & D & I). unfold krun in *. rewrite fold_left_app. cbn [fold_left].
      destruct (db_step c0 _ docs e (tidy_run es _ (tidy_rest c0 DWants (fun x => x))) D P2) as (more & D' & I'). exists (docs ++ more). split; [exact D'|]. unfold docs_in in *. rewrite flat_map_app. apply incl_app; [apply incl_appl; exact I|apply incl_appr; exact I']. }
  destruct H as (docs & [U D] & I). exists docs. assert (G : forall c l, Forall (says c) l -> forall isp cid a, In (isp, cid, a) l -> a = FindByCid c isp cid) by (intros c l F isp cid a Hx; rewrite Forall_forall in F; exact (F _ Hx)).
  destruct (k_load s) as [|fs|id d r|id d r|r| | |] eqn:L; try contradiction.
  - destruct D as (E & l1 & l2 & El & F1 & F2). exists l1, l2. split; [exact I|]. split; [exact El|]. split; [exact (G _ _ F1)|]. split; [exact (G _ _ F2)|]. auto.
  - destruct D as (_ & _ & F). exists (k_log s), []. rewrite app_nil_r. split; [exact I|]. split; [reflexivity|]. split; [exact (G _ _ F)|]. split; [intros ? ? ? []|]. split; [discriminate|exact U].
  - destruct D as (_ & F). exists (k_log s), []. rewrite app_nil_r. split; [exact I|]. split; [reflexivity|]. split; [exact (G _ _ F)|]. split; [intros ? ? ? []|]. split; [discriminate|exact U].
  - destruct D as (_ & F). exists (k_log s), []. rewrite app_nil_r. split; [exact I|]. split; [reflexivity|]. split; [exact (G _ _ F)|]. split; [intros ? ? ? []|]. split; [discriminate|exact U].
Qed.
(** *** Any number of reloads of both stores *)
Lemma store_keeps id v c isp cid : FindByCid c isp cid <> None -> FindByCid (store_at beqb id v c) isp cid <> None.
Proof.
  unfold FindByCid. intros N. destruct (list_eq_dec Z.eq_dec (ToLower isp ++ [95] ++ cid) id) as [<-|X].
  - rewrite load_store_same by (apply beqb_iff; reflexivity). discriminate.
  - rewrite load_store_other; [exact N|exact beqb_iff|exact X].
Qed.
Lemma kept_step s e isp cid : FindByCid (k_cache s) isp cid <> None -> FindByCid (k_cache (kstep s e)) isp cid <> None.
Proof.
  intros N. unfold kstep. destruct (k_up s); [|exact N]. cbn [negb]. destruct e as [fs|ok| |x|t i c|t].
  - destruct (k_load s); exact N.
  - destruct (k_load s); try exact N. destruct ok; exact N.
  - destruct (k_load s) as [|[|f r]|id d r|id d r|r| | |]; try exact N; try (unfold take; destruct (k_lock s); exact N).
    + destruct (de_dir f); [exact N|]. destruct (file_key (de_name f)); exact N.
    + destruct (unmarshal d id (k_cache s)) as [c1| |] eqn:E; try exact N. cbn. unfold unmarshal in E. destruct d as [d|]; [|injection E as <-; exact N]. destruct (slice id 0 4); cbn [bind] in E; [|discriminate E|discriminate E]. injection E as <-. apply store_keeps. exact N.
  - destruct (k_load s); try exact N. destruct x as [[d|]|]; try exact N. apply store_keeps. exact N.
  - destruct (k_ask s t); exact N.
  - destruct (k_ask s t); try exact N. destruct (k_lock s); exact N.
Qed.
(** Who was once found is found at every later moment, however many reloads run meanwhile. *)
Theorem C128_never_lost : forall c0 es isp cid, let log := k_log (krun (resting c0 LIdle) es) in
  (FindByCid c0 isp cid <> None -> ~ In (isp, cid, None) log) /\
  (forall pre a post, log = pre ++ (isp, cid, Some a) :: post -> ~ In (isp, cid, None) post).
Proof.
  intros c0 es isp cid. induction es as [|e es IH] using rev_ind.
  - split; [intros _ []|]. intros pre a post E. destruct pre; discriminate E.
  - assert (K : forall es, (FindByCid c0 isp cid <> None -> FindByCid (k_cache (krun (resting c0 LIdle) es)) isp cid <> None) /\
        ((exists a, In (isp, cid, Some a) (k_log (krun (resting c0 LIdle) es))) -> FindByCid (k_cache (krun (resting c0 LIdle) es)) isp cid <> None)).
    { clear. induction es as [|e es [I1 I2]] using rev_ind; [split; [auto|intros (a & [])]|]. unfold krun in *. rewrite fold_left_app. cbn [fold_left]. split; [intros H; apply kept_step; auto|].
      intros (a & Ha). destruct (log_step (fold_left kstep es (resting c0 LIdle)) e (tidy_run es _ (tidy_rest c0 LIdle (fun x => x)))) as [E|(i & c & E & _)]; rewrite E in Ha; [apply kept_step; eauto|].
      apply in_app_or in Ha as [Ha|[Ha|[]]]; [apply kept_step; eauto|]. injection Ha as -> -> Ha. apply kept_step. congruence. }
    destruct (K es) as [K1 K2]. clear K. destruct IH as [IH1 IH2]. unfold krun in *. rewrite fold_left_app. cbn [fold_left].
    destruct (log_step (fold_left kstep es (resting c0 LIdle)) e (tidy_run es _ (tidy_rest c0 LIdle (fun x => x)))) as [E|(i & c & E & _)]; rewrite E; [split; assumption|]. split.
    + intros H X. apply in_app_or in X as [X|[X|[]]]; [exact (IH1 H X)|]. injection X as -> -> X. exact (K1 H X).
    + intros pre a post El X. destruct (exists_last (l := post)) as (post' & z & ->); [intros ->; destruct X|]. rewrite app_comm_cons, app_assoc in El. apply app_inj_tail in El as [El <-].
      apply in_app_or in X as [X|[X|[]]]; [exact (IH2 _ _ _ El X)|]. injection X as -> -> X. apply K2; [|exact X]. exists a. rewrite El. apply in_or_app. right. left. reflexivity.
Qed.
(** *** Waiting *)
(** Every readable file of a reload is named by a key of at least four octets (else Load ends the process: C66). *)
Definition long_names (e : kevent) : Prop :=
  match e with KReload files => forall f id d, In f files -> named f id -> de_data f = Some d -> 4 <= zlen id | KFind _ => False | _ => True end.
Definition fine (r : list dirent) : Prop := forall f id d, In f r -> named f id -> de_data f = Some d -> 4 <= zlen id.
Definition files_at (s : desk) : Prop :=
  k_up s = true /\
  match k_load s with
  | LIdle => True | LFiles r | LOut r => fine r
  | LWants id d r | LIn id d r => fine r /\ (d <> None -> 4 <= zlen id)
  | _ => False
  end.
Lemma unmarshal_ok d id c : (d <> None -> 4 <= zlen id) -> exists c', unmarshal d id c = Ok c'.
Proof.
  intros H. destruct d as [d|]; [|eexists; reflexivity]. cbn [unmarshal]. assert (X : 4 <= zlen id) by (apply H; discriminate). rewrite (proj2 (slice04 id (firstn 4 id)) (conj X eq_refl)). eexists. reflexivity.
Qed.
Lemma files_at_step s e : files_at s -> long_names e -> files_at (kstep s e).
Proof.
  intros [U F] G. unfold kstep. rewrite U. cbn [negb]. assert (Same : files_at s) by (split; assumption). destruct e as [fs|ok| |x|t isp cid|t]; cbn in G.
  - destruct (k_load s) eqn:L; try exact Same. split; [exact U|]. exact G.
  - contradiction.
  - destruct (k_load s) as [|[|f r]|id d r|id d r|r| | |] eqn:L; try contradiction; try exact Same.
    + split; [exact U|exact I].
    + assert (Fr : fine r) by (intros g i d Hg; apply F; right; exact Hg). destruct (de_dir f) eqn:D; [split; [exact U|exact Fr]|]. destruct (file_key (de_name f)) as [|k0 kr] eqn:K; [split; [exact U|exact Fr]|].
      split; [exact U|]. split; [exact Fr|]. intros N. destruct (de_data f) as [d|] eqn:Dd; [|congruence]. apply (F f _ d); [left; reflexivity| |exact Dd]. apply named_iff. rewrite K. split; [exact D|]. split; [discriminate|reflexivity].
    + unfold take. destruct (k_lock s); try exact Same. split; [exact U|exact F].
    + destruct F as [F1 F2]. destruct (unmarshal_ok d id (k_cache s) F2) as (c' & ->). split; [exact U|exact F1].
    + split; [exact U|exact F].
  - destruct (k_load s) eqn:L; try contradiction; exact Same.
  - destruct (k_ask s t); try exact Same. split; [reflexivity|exact F].
  - destruct (k_ask s t); try exact Same; [destruct (k_lock s); try exact Same| |]; (split; [reflexivity|exact F]).
Qed.
Lemma files_at_run es : forall s, files_at s -> Forall long_names es -> files_at (krun s es).
Proof. induction es as [|e es IH]; intros s F G; [exact F|]. inversion G; subst. apply IH; [|assumption]. apply files_at_step; assumption. Qed.
Lemma krun_app a b s : krun s (a ++ b) = krun (krun s a) b.
Proof. apply fold_left_app. Qed.
Lemma ask_free s t isp cid : k_up s = true -> k_lock s = Free -> k_ask s t = AWants isp cid ->
  let s' := krun s [KMove t; KMove t; KMove t] in k_log s' = k_log s ++ [(isp, cid, FindByCid (k_cache s') isp cid)].
Proof.
  intros U L K. unfold krun. cbn [fold_left]. cbv zeta. assert (X : forall a b, a = b -> k_cache a = k_cache s -> k_log a = k_log s ++ [(isp, cid, FindByCid (k_cache s) isp cid)] -> k_log b = k_log s ++ [(isp, cid, FindByCid (k_cache b) isp cid)]) by (intros a b <- -> ->; reflexivity). eapply X; [reflexivity| |]; clear X; unfold kstep at 3; rewrite U, K, L; cbn [negb]; unfold kstep at 2; cbn [negb k_up k_ask]; rewrite set_same; cbn [k_cache k_lock k_load k_log];
  unfold kstep; cbn [negb k_up k_ask]; rewrite set_same; reflexivity.
Qed.
(** A lookup at the file store, whatever reloads and other lookups are under way: at most two statements of the one
    who holds the lock and three of its own, none of them a read of a file, and it has its answer. *)
Theorem C128_free_partial : forall c0 es t isp cid, Forall long_names es -> let s := krun (resting c0 LIdle) es in k_ask s t = AWants isp cid ->
  exists es' others, (length es' <= 5)%nat /\ Forall (fun e => e = KLoad \/ exists u, e = KMove u) es' /\
    k_log (krun s es') = k_log s ++ others ++ [(isp, cid, FindByCid (k_cache (krun s es')) isp cid)] /\ (length others <= 1)%nat.
Proof.
  intros c0 es t isp cid G s K. assert (T : tidy s) by (apply tidy_run; apply tidy_rest; cbn; tauto). assert (F : files_at s) by (apply files_at_run; [split; [reflexivity|exact I]|exact G]).
  clearbody s. clear G es c0. destruct T as (A & B & C). destruct F as [U F].
  assert (Own : Forall (fun e => e = KLoad \/ exists u, e = KMove u) [KMove t; KMove t; KMove t]) by (repeat (constructor; [right; eexists; reflexivity|]); constructor).
  destruct (k_lock s) as [| |u] eqn:L.
  - exists [KMove t; KMove t; KMove t], []. split; [cbn; lia|]. split; [exact Own|]. split; [apply ask_free; assumption|cbn; lia].
  - assert (In1 : inside_load (k_load s)) by (apply A; reflexivity). destruct (k_load s) as [|r|id d r|id d r|r| | |] eqn:Ld; try contradiction.
    + destruct F as [F1 F2]. destruct (unmarshal_ok d id (k_cache s) F2) as (c' & E). exists [KLoad; KLoad; KMove t; KMove t; KMove t], []. split; [cbn; lia|].
      split; [constructor; [left; reflexivity|]; constructor; [left; reflexivity|exact Own]|]. split; [|cbn; lia].
      assert (X : krun s [KLoad; KLoad] = Desk c' Free (LFiles r) (k_ask s) (k_log s) true).
      { unfold krun. cbn [fold_left]. unfold kstep at 2. rewrite U, Ld, E. cbn [negb]. unfold kstep, fill, give. cbn [negb k_up k_load k_cache k_ask k_log]. rewrite U. reflexivity. }
      change [KLoad; KLoad; KMove t; KMove t; KMove t] with ([KLoad; KLoad] ++ [KMove t; KMove t; KMove t]). rewrite !krun_app. rewrite X. rewrite (ask_free _ t isp cid) at 1; [reflexivity|reflexivity|reflexivity|exact K].
    + exists [KLoad; KMove t; KMove t; KMove t], []. split; [cbn; lia|]. split; [constructor; [left; reflexivity|exact Own]|]. split; [|cbn; lia].
      assert (X : krun s [KLoad] = Desk (k_cache s) Free (LFiles r) (k_ask s) (k_log s) true) by (unfold krun; cbn [fold_left]; unfold kstep, give; rewrite U, Ld; reflexivity).
      change [KLoad; KMove t; KMove t; KMove t] with ([KLoad] ++ [KMove t; KMove t; KMove t]). rewrite !krun_app. rewrite X. rewrite (ask_free _ t isp cid) at 1; [reflexivity|reflexivity|reflexivity|exact K].
  - assert (Nu : ~ outside (k_ask s u)) by (apply B; reflexivity). destruct (Nat.eq_dec u t) as [->|N]; [rewrite K in Nu; exfalso; apply Nu; exact I|].
    destruct (k_ask s u) as [|i c|i c|i c a] eqn:Ku; try (exfalso; apply Nu; exact I).
    + exists [KMove u; KMove u; KMove t; KMove t; KMove t], [(i, c, FindByCid (k_cache s) i c)]. split; [cbn; lia|].
      split; [constructor; [right; eexists; reflexivity|]; constructor; [right; eexists; reflexivity|exact Own]|]. split; [|cbn; lia].
      assert (X : krun s [KMove u; KMove u] = Desk (k_cache s) Free (k_load s) (set_ask (set_ask (k_ask s) u (AGot i c (FindByCid (k_cache s) i c))) u AIdle) (k_log s ++ [(i, c, FindByCid (k_cache s) i c)]) true).
      { unfold krun. cbn [fold_left]. unfold kstep at 2. rewrite U, Ku. cbn [negb]. unfold kstep. cbn [negb k_up k_ask]. rewrite set_same. reflexivity. }
      change [KMove u; KMove u; KMove t; KMove t; KMove t] with ([KMove u; KMove u] ++ [KMove t; KMove t; KMove t]). rewrite !krun_app. rewrite X.
      rewrite (ask_free _ t isp cid) at 1; [cbn [k_log k_cache]; rewrite <- app_assoc; reflexivity|reflexivity|reflexivity|]. cbn [k_ask]. rewrite !set_other by auto. exact K.
    + exists [KMove u; KMove t; KMove t; KMove t], [(i, c, a)]. split; [cbn; lia|]. split; [constructor; [right; eexists; reflexivity|exact Own]|]. split; [|cbn; lia].
      assert (X : krun s [KMove u] = Desk (k_cache s) Free (k_load s) (set_ask (k_ask s) u AIdle) (k_log s ++ [(i, c, a)]) true) by (unfold krun; cbn [fold_left]; unfold kstep; rewrite U, Ku; reflexivity).
      change [KMove u; KMove t; KMove t; KMove t] with ([KMove u] ++ [KMove t; KMove t; KMove t]). rewrite !krun_app. rewrite X.
      rewrite (ask_free _ t isp cid) at 1; [cbn [k_log k_cache]; rewrite <- app_assoc; reflexivity|reflexivity|reflexivity|]. cbn [k_ask]. rewrite set_other by auto. exact K.
Qed.
(** At the database store a lookup that comes after Find waits for the cursor: while no document and no end of the
    cursor comes, no lookup of anybody is answered, and those that wait go on waiting. *)
Theorem C128_refuted : forall c0 es0 es, let s := krun (resting c0 LIdle) es0 in k_load s = DIn -> forallb (fun e => negb (arrives e)) es = true ->
  k_log (krun s es) = k_log s /\ k_load (krun s es) = DIn /\ forall t isp cid, k_ask s t = AWants isp cid -> k_ask (krun s es) t = AWants isp cid.
Proof.
  intros c0 es0 es s D. assert (T : tidy s) by (apply tidy_run; apply tidy_rest; cbn; tauto). clearbody s. revert s T D. induction es as [|e es IH]; intros s T D P; [split; [reflexivity|]; split; [exact D|auto]|].
  cbn in P. apply andb_true_iff in P as [P1 P2]. assert (H : k_log (kstep s e) = k_log s /\ k_load (kstep s e) = DIn /\ forall t isp cid, k_ask s t = AWants isp cid -> k_ask (kstep s e) t = AWants isp cid).
  { destruct T as (A & B & _). assert (L : k_lock s = Loads) by (apply A; rewrite D; exact I). assert (Out : forall t, outside (k_ask s t)) by (intros t; destruct (k_ask s t) eqn:K; try exact I; exfalso; assert (X : k_lock s = Asks t) by (apply B; rewrite K; auto); congruence).
    unfold kstep. destruct (k_up s); [|auto]. cbn [negb]. destruct e as [fs|ok| |x|t isp cid|t]; try discriminate P1; rewrite ?D; auto.
    - destruct (k_ask s t) as [| | |] eqn:K; auto. cbn. split; [reflexivity|]. split; [reflexivity|]. intros u i c Ku. destruct (Nat.eq_dec u t) as [->|N]; [congruence|rewrite set_other by exact N; exact Ku].
    - specialize (Out t). destruct (k_ask s t) eqn:K; try contradiction; [auto|]. rewrite L. auto. }
  destruct H as (H1 & H2 & H3). destruct (IH (kstep s e) (tidy_step s e T) H2 P2) as (I1 & I2 & I3). unfold krun in *. cbn [fold_left]. split; [congruence|]. split; [exact I2|auto].
Qed.
(** Two files of one client: a lookup between them finds the first one's entry, although the store has the second
    one's before and after the reload. *)
Theorem C128_refuted_twice : forall c0 isp p cid f1 f2 d1 d2 a1 a2, lowered isp p -> let id := p ++ [95] ++ cid in
  4 <= zlen id -> named f1 id -> named f2 id -> de_data f1 = Some d1 -> de_data f2 = Some d2 -> the_entry id d1 a1 -> the_entry id d2 a2 -> FindByCid c0 isp cid = Some a2 ->
  exists es, forallb (fun e => negb (reloads e)) es = true /\ let s := krun (resting c0 (LFiles [f1; f2])) es in
    k_load s = LIdle /\ told isp cid (k_log s) = [Some a2; Some a1; Some a2] /\ FindByCid (k_cache s) isp cid = Some a2.
Proof.
  intros c0 isp p cid f1 f2 d1 d2 a1 a2 Lw id Ln N1 N2 D1 D2 E1 E2 B. apply lowered_iff in Lw. apply the_entry_iff in E1, E2. apply named_iff in N1 as (Q1 & K1 & I1). apply named_iff in N2 as (Q2 & K2 & I2).
  set (ask := [KAsk 0 isp cid; KMove 0; KMove 0; KMove 0]). set (one := [KLoad; KLoad; KLoad; KLoad]).
  assert (Ask2 : forall c l f log, f 0%nat = AIdle -> exists f', f' 0%nat = AIdle /\ krun (Desk c Free l f log true) ask = Desk c Free l f' (log ++ [(isp, cid, FindByCid c isp cid)]) true).
  { intros c l f log H0. eexists. split; [|unfold ask, krun; cbn [fold_left]; unfold kstep at 4; cbn [negb k_up k_ask]; rewrite H0; reflexivity]. reflexivity. }
  assert (One : forall c f d r ff log, de_dir f = false -> file_key (de_name f) <> [] -> id = ToLower (file_key (de_name f)) -> de_data f = Some d ->
    krun (Desk c Free (LFiles (f :: r)) ff log true) one = Desk (store_at beqb id (with_ISP (firstn 4 id) d) c) Free (LFiles r) ff log true).
  { intros c f d r ff log Q K Ii Dd. unfold one, krun. cbn [fold_left]. unfold kstep at 4. cbn [negb k_up k_load]. rewrite Q. destruct (file_key (de_name f)) as [|k0 kr]; [congruence|]. rewrite <- Ii, Dd. unfold at_load. cbn [k_cache k_lock k_ask k_log k_up].
    unfold kstep at 3. cbn [negb k_up k_load]. unfold take. cbn [k_lock k_cache k_ask k_log k_up]. unfold kstep at 2. cbn [negb k_up k_load k_cache]. unfold unmarshal. rewrite (proj2 (slice04 id (firstn 4 id)) (conj Ln eq_refl)). reflexivity. }
  exists (ask ++ one ++ ask ++ one ++ ask ++ [KLoad]). split; [reflexivity|]. unfold krun in *. rewrite !fold_left_app. unfold resting.
  destruct (Ask2 c0 (LFiles [f1; f2]) (fun _ => AIdle) [] eq_refl) as (g1 & G1 & ->). rewrite (One _ _ d1 _ _ _ Q1 K1 I1 D1).
  match goal with |- context [fold_left kstep ask (Desk ?c Free ?l g1 ?log true)] => destruct (Ask2 c l g1 log G1) as (g2 & G2 & ->) end. rewrite (One _ _ d2 _ _ _ Q2 K2 I2 D2).
  match goal with |- context [fold_left kstep ask (Desk ?c Free ?l g2 ?log true)] => destruct (Ask2 c l g2 log G2) as (g3 & G3 & ->) end.
  set (c1 := store_at beqb id (with_ISP (firstn 4 id) d1) c0). set (c2 := store_at beqb id (with_ISP (firstn 4 id) d2) c1).
  assert (V1 : FindByCid c1 isp cid = Some a1). { unfold FindByCid, c1. rewrite <- Lw. fold id. rewrite load_store_same by (apply beqb_iff; reflexivity). congruence. }
  assert (V2 : FindByCid c2 isp cid = Some a2). { unfold FindByCid, c2. rewrite <- Lw. fold id. rewrite load_store_same by (apply beqb_iff; reflexivity). congruence. }
  cbn [fold_left]. unfold kstep. cbn [negb k_up k_load]. unfold at_load. cbn [k_load k_log k_cache k_lock k_ask k_up]. split; [reflexivity|]. split; [|exact V2].
  rewrite V1, V2, B. unfold told. assert (SI : same_octets isp isp = true) by (apply same_octets_iff; reflexivity). assert (SC : same_octets cid cid = true) by (apply same_octets_iff; reflexivity).
  cbn [app filter fst snd]. rewrite SI, SC. reflexivity.
Qed.
(** Concrete cases: the demonstration files, a lookup of 901 between them and after them; two lookups while the
    database loads; the cursor stalls. *)
Definition demo_ask (t : nat) : list kevent := [KAsk t [99;109;112;112] [57;48;49]; KMove t; KMove t; KMove t].
Example C128_case : let a := Some (with_ISP [99;109;112;112] (demo_acc [57;48;49] [1])) in let s := krun (resting [] (LFiles demo_files)) (demo_ask 1 ++ [KLoad; KAsk 2 [99;109;112;112] [57;48;49]; KMove 2; KLoad; KLoad; KMove 2; KMove 2; KLoad; KLoad; KMove 2; KLoad] ++ demo_ask 3) in
  told [99;109;112;112] [57;48;49] (k_log s) = [None; None; a].
Proof. vm_compute. reflexivity. Qed.
Example C128_case_one : one_file demo_files [99;109;112;112;95;57;48;49] (with_ISP [99;109;112;112] (demo_acc [57;48;49] [1])).
Proof.
  exists [], (hd (Dirent [] false None) demo_files), (tl demo_files), (demo_acc [57;48;49] [1]). split; [reflexivity|]. split; [apply named_iff; vm_compute; split; [reflexivity|split; [discriminate|reflexivity]]|]. split; [reflexivity|].
  split; [apply the_entry_iff; reflexivity|]. intros g Hg N. apply named_iff in N as (N1 & N2 & N3). cbn in Hg. repeat destruct Hg as [<-|Hg]; try destruct Hg; vm_compute in N1, N2, N3; try discriminate; try reflexivity.
Qed.
Example C128_case_db : let d := with_ISP [99;109;112;112] (demo_acc [57;48;49] [1]) in let s := krun (resting [] DWants) (demo_ask 1 ++ [KLoad; KAsk 2 [99;109;112;112] [57;48;49]; KMove 2; KDoc (Some (Some d)); KMove 2; KDoc None; KLoad] ++ [KMove 2; KMove 2; KMove 2]) in
  told [99;109;112;112] [57;48;49] (k_log s) = [None; Some d] /\ k_load s = LIdle.
Proof. vm_compute. split; reflexivity. Qed.
Example C128_case_stalls : let s := krun (resting [] LIdle) [KFind true; KLoad; KAsk 2 [99;109;112;112] [57;48;49]; KMove 2] in k_load s = DIn /\ k_ask s 2%nat = AWants [99;109;112;112] [57;48;49].
Proof. vm_compute. split; reflexivity. Qed.
Example C128_case_free : Forall long_names [KReload demo_files; KLoad; KLoad; KLoad; KAsk 2 [99;109;112;112] [57;48;49]; KMove 2] /\
  k_ask (krun (resting [] LIdle) [KReload demo_files; KLoad; KLoad; KLoad; KAsk 2 [99;109;112;112] [57;48;49]; KMove 2]) 2%nat = AWants [99;109;112;112] [57;48;49].
Proof.
  split; [|vm_compute; reflexivity]. constructor; [|repeat constructor]. intros f id d Hf N Dd. apply named_iff in N as (N1 & N2 & ->). cbn in Hf. repeat destruct Hf as [<-|Hf]; try destruct Hf; vm_compute in N1, N2 |- *; congruence.
Qed.
Print Assumptions C128_files_partial. Print Assumptions C128_db_partial. Print Assumptions C128_never_lost. Print Assumptions C128_free_partial.
Print Assumptions C128_refuted. Print Assumptions C128_refuted_twice.
