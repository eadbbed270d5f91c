(** * PropStore: C82 (the account store comes up and stays up) and C67 over the whole life of a server (a reload
    brings the accounts up to date).  Model: MainModel.v. *)
From Verif Require Import Base OptionsModel ClientModel ClientProofs ServerProofs AuthModel PropAuth MainModel.

(** ** Specification *)
Definition yaml_type (t : bytes) : Prop := t = [] \/ t = [121;97;109;108] \/ t = [121;109;108]. (* "", yaml, yml *)
Definition mongo_type (t : bytes) : Prop := t = [109;111;110;103;111]. (* mongo *)
(** A directory the file store can take: listed, every account file readable, and those that
    decode named with at least four characters. *)
Definition fine (n : scan) : Prop := exists fs, sn_dir n = Some fs /\
  forall f ok id, In (f, ok) fs -> named f id -> ok = true /\ (de_data f <> None -> 4 <= zlen id).
Definition files (n : scan) : list dirent := match sn_dir n with Some fs => map fst fs | None => [] end.
(** What must hold for the server to be up after the first load and some reloads. *)
Definition sound (g : settings) (scans : list scan) : Prop :=
  0 <= st_ticker g /\
  ((yaml_type (st_type g) /\ Forall fine scans) \/
   (mongo_type (st_type g) /\ st_uri g <> [] /\ st_user g <> [] /\ st_passwd g <> [] /\ st_connects g = true)).

Lemma store_kind_yaml t : store_kind t = KYaml <-> yaml_type t.
Proof.
  unfold store_kind, yaml_type. change t_yaml with [121;97;109;108]. change t_yml with [121;109;108].
  destruct (beqb t [] || beqb t [121;97;109;108] || beqb t [121;109;108]) eqn:E.
  - rewrite !orb_true_iff, !beqb_iff in E. tauto.
  - rewrite !orb_false_iff in E. destruct E as [[A B] C]. destruct (beqb t t_mongo); (split; [discriminate|]); intros [X|[X|X]]; apply beqb_iff in X; congruence.
Qed.
Lemma store_kind_mongo t : store_kind t = KMongo <-> mongo_type t.
Proof.
  unfold store_kind, mongo_type. change t_yaml with [121;97;109;108]. change t_yml with [121;109;108]. change t_mongo with [109;111;110;103;111].
  destruct (beqb t [] || beqb t [121;97;109;108] || beqb t [121;109;108]) eqn:E.
  - rewrite !orb_true_iff, !beqb_iff in E. split; [discriminate|]. intros ->. destruct E as [[E|E]|E]; discriminate E.
  - destruct (beqb t [109;111;110;103;111]) eqn:M; [apply beqb_iff in M; tauto|]. split; [discriminate|]. intros X. apply beqb_iff in X. congruence.
Qed.
(** One scan of a directory is Load over its files if it is fine, and the end otherwise. *)
Lemma yaml_scan_up fs : forall c, (exists c1, yaml_scan fs c = Up c1) <->
  (forall f ok id, In (f, ok) fs -> named f id -> ok = true /\ (de_data f <> None -> 4 <= zlen id)).
Proof.
  induction fs as [|[f ok] fs IH]; intros c; [split; [intros _ f ok id []|intros _; exists c; reflexivity]|]. cbn [yaml_scan].
  assert (R : forall c1, (forall id, named f id -> ok = true /\ (de_data f <> None -> 4 <= zlen id)) ->
    ((exists c2, yaml_scan fs c1 = Up c2) <-> (forall g o id, In (g, o) ((f, ok) :: fs) -> named g id -> o = true /\ (de_data g <> None -> 4 <= zlen id)))).
  { intros c1 H. rewrite (IH c1). split; [intros X g o id [E|I] N; [injection E as <- <-; apply H, N|exact (X g o id I N)]|intros X g o id I; apply (X g o id (or_intror I))]. }
  destruct (de_dir f) eqn:D; [apply R; intros id [N _]; congruence|].
  destruct (file_key (de_name f)) as [|k0 kr] eqn:K; [apply R; intros id N; apply named_iff in N as (_ & N & _); congruence|].
  assert (N0 : named f (ToLower (k0 :: kr))) by (apply named_iff; rewrite K; split; [exact D|split; [discriminate|reflexivity]]).
  destruct ok.
  - unfold unmarshal. destruct (de_data f) as [d|] eqn:DD.
    + destruct (slice (ToLower (k0 :: kr)) 0 4) as [x|e|] eqn:SL; cbn [bind].
      * apply slice04 in SL as [L _]. apply R. intros id N. apply named_iff in N as (_ & _ & ->). rewrite K. auto.
      * destruct (slice_noerr _ _ _ _ SL).
      * split; [intros (c2 & E); discriminate E|]. intros X. exfalso. destruct (X f true _ (or_introl eq_refl) N0) as [_ L].
        rewrite (proj2 (slice04 _ _) (conj (L ltac:(congruence)) eq_refl)) in SL. discriminate SL.
    + apply R. intros id _. split; [reflexivity|congruence].
  - split; [intros (c2 & E); discriminate E|]. intros X. exfalso. destruct (X f false _ (or_introl eq_refl) N0). discriminate.
Qed.
Lemma yaml_scan_load fs : forall c c1, yaml_scan fs c = Up c1 -> yaml_Load (map fst fs) c = Ok c1.
Proof.
  induction fs as [|[f ok] fs IH]; intros c c1; cbn [yaml_scan map fst yaml_Load]; [congruence|].
  destruct (de_dir f); [apply IH|]. destruct (file_key (de_name f)) as [|k0 kr]; [apply IH|]. destruct ok; [|discriminate].
  destruct (unmarshal (de_data f) (ToLower (k0 :: kr)) c) as [c2|e|]; cbn [bind]; try discriminate. apply IH.
Qed.
Lemma reload_dead k set ns l : (forall c, l <> Up c) -> fold_left (reload k set) ns l = l.
Proof. induction ns as [|n ns IH]; intros H; [reflexivity|]. cbn [fold_left]. unfold reload at 2. destruct l as [c| |]; [destruct (H c eq_refl)|apply IH; discriminate|apply IH; discriminate]. Qed.
Lemma reload_yaml ns : forall c, (exists c1, fold_left (reload KYaml false) ns (Up c) = Up c1) <-> Forall fine ns.
Proof.
  induction ns as [|n ns IH]; intros c; [split; [constructor|intros _; exists c; reflexivity]|]. cbn [fold_left reload store_load].
  assert (Q : (exists c1, match sn_dir n with None => Stopped | Some fs => yaml_scan fs c end = Up c1) <-> fine n).
  { unfold fine. destruct (sn_dir n) as [fs|].
    - rewrite (yaml_scan_up fs c). split; [intros X; exists fs; auto|]. intros (fs' & E & X). injection E as <-. exact X.
    - split; [intros (c1 & E); discriminate E|intros (fs & E & _); discriminate E]. }
  destruct (match sn_dir n with None => Stopped | Some fs => yaml_scan fs c end) as [c1| |] eqn:E.
  - rewrite (IH c1). split; [intros F; constructor; [apply Q; eauto|exact F]|inversion 1; auto].
  - rewrite reload_dead by discriminate. split; [intros (x & X); discriminate X|]. inversion 1; subst. destruct (proj2 Q H2) as (x & X). discriminate X.
  - rewrite reload_dead by discriminate. split; [intros (x & X); discriminate X|]. inversion 1; subst. destruct (proj2 Q H2) as (x & X). discriminate X.
Qed.
Lemma reload_mongo ns : forall c, exists c1, fold_left (reload KMongo true) ns (Up c) = Up c1.
Proof. induction ns as [|n ns IH]; intros c; [exists c; reflexivity|]. cbn [fold_left reload store_load]. apply IH. Qed.

(** ** C82 *)
(** Exactly when the server is up after the first load and any number of reloads. *)
Theorem C82_up_iff_partial : forall g first ticks, (exists c, store_run g first ticks = Up c) <-> sound g (first :: ticks).
Proof.
  intros g first ticks. unfold store_run, sound.
  assert (P : (ticker_period g <=? 0) = true <-> st_ticker g < 0).
  { unfold ticker_period. destruct (Z.eqb_spec (st_ticker g) 0) as [E|E]; rewrite Z.leb_le; lia. }
  unfold store_New. destruct (store_kind (st_type g)) eqn:K.
  - pose proof (proj1 (store_kind_yaml _) K) as Y.
    assert (NM : ~ mongo_type (st_type g)) by (intros M; apply store_kind_mongo in M; congruence).
    pose proof (reload_yaml (first :: ticks) []) as R. cbn [fold_left reload] in R. cbv beta iota.
    destruct (store_load KYaml false first []) as [c| |] eqn:E.
    + destruct (ticker_period g <=? 0) eqn:T.
      * split; [intros (x & X); discriminate X|]. intros [X _]. apply proj1 in P. specialize (P eq_refl). lia.
      * rewrite R. split; [intros F; split; [|left; auto]|intros [_ [[_ F]|[M _]]]; [exact F|contradiction]].
        destruct (Z.lt_ge_cases (st_ticker g) 0) as [L|L]; [apply P in L; discriminate L|exact L].
    + rewrite reload_dead in R by discriminate. split; [intros X; destruct X as (? & X); discriminate X|]. intros [_ [[_ F]|[M _]]]; [|contradiction]. apply R in F. destruct F as (? & F); discriminate F.
    + rewrite reload_dead in R by discriminate. split; [intros X; destruct X as (? & X); discriminate X|]. intros [_ [[_ F]|[M _]]]; [|contradiction]. apply R in F. destruct F as (? & F); discriminate F.
  - pose proof (proj1 (store_kind_mongo _) K) as M.
    assert (NY : ~ yaml_type (st_type g)) by (intros Y; apply store_kind_yaml in Y; congruence).
    unfold InitDB. assert (EB : forall l, beqb l [] = true <-> l = []) by (intros l; apply beqb_iff).
    destruct (beqb (st_uri g) []) eqn:U.
    { apply EB in U. cbn [store_load]. split; [intros X; destruct X as (? & X); discriminate X|]. intros [_ [[Y _]|(_ & X & _)]]; contradiction. }
    destruct (beqb (st_user g) []) eqn:V.
    { apply EB in V. cbn [orb]. split; [intros X; destruct X as (? & X); discriminate X|]. intros [_ [[Y _]|(_ & _ & X & _)]]; contradiction. }
    destruct (beqb (st_passwd g) []) eqn:W.
    { apply EB in W. cbn [orb]. split; [intros X; destruct X as (? & X); discriminate X|]. intros [_ [[Y _]|(_ & _ & _ & X & _)]]; contradiction. }
    cbn [orb]. destruct (st_connects g).
    + cbn [store_load]. destruct (ticker_period g <=? 0) eqn:T.
      * split; [intros (x & X); discriminate X|]. intros [X _]. apply proj1 in P. specialize (P eq_refl). lia.
      * split; [|intros _; apply reload_mongo]. intros _. split.
        { destruct (Z.lt_ge_cases (st_ticker g) 0) as [L|L]; [apply P in L; discriminate L|exact L]. }
        right. split; [exact M|]. assert (NE : forall l, beqb l [] = false -> l <> []) by (intros l A B; apply EB in B; congruence). auto 6.
    + split; [intros X; destruct X as (? & X); discriminate X|]. intros [_ [[Y _]|(_ & _ & _ & _ & X)]]; [contradiction|discriminate X].
  - cbn [store_load]. split; [intros X; destruct X as (? & X); discriminate X|]. intros [_ [[Y _]|[Y _]]].
    + apply store_kind_yaml in Y. congruence.
    + apply store_kind_mongo in Y. congruence.
Qed.
(** Refuted: with a store type that is none of the four the program crashes, instead of saying so. *)
Theorem C82_refuted_type : forall g first ticks, ~ yaml_type (st_type g) -> ~ mongo_type (st_type g) -> store_run g first ticks = Crashed.
Proof.
  intros g first ticks Y M. unfold store_run, store_New. destruct (store_kind (st_type g)) eqn:K; [apply store_kind_yaml in K; contradiction|apply store_kind_mongo in K; contradiction|reflexivity].
Qed.
(** Refuted: the database store without an address crashes too. *)
Theorem C82_refuted_uri : forall g first ticks, mongo_type (st_type g) -> st_uri g = [] -> store_run g first ticks = Crashed.
Proof. intros g first ticks M U. apply store_kind_mongo in M. unfold store_run, store_New, InitDB. rewrite M, U. reflexivity. Qed.
(** Refuted: a running server ends at the first reload that meets an unreadable directory or
    account file, whatever it has loaded. *)
Theorem C82_refuted_reload : forall g first pre n post, sound g (first :: pre) -> yaml_type (st_type g) -> ~ fine n ->
  (exists c, store_run g first pre = Up c) /\ forall c, store_run g first (pre ++ n :: post) <> Up c.
Proof.
  intros g first pre n post S Y F. split; [apply C82_up_iff_partial, S|]. intros c X.
  assert (E : exists c, store_run g first (pre ++ n :: post) = Up c) by eauto. apply C82_up_iff_partial in E as (_ & [[_ E]|[M _]]).
  - apply F. rewrite Forall_forall in E. apply E. right. apply in_or_app. right. left. reflexivity.
  - apply store_kind_yaml in Y. apply store_kind_mongo in M. congruence.
Qed.
(** With the database store no reload ever ends a running server, whatever the queries answer. *)
Theorem C82_mongo_stays : forall g first ticks first' ticks', mongo_type (st_type g) ->
  (exists c, store_run g first ticks = Up c) -> exists c, store_run g first' ticks' = Up c.
Proof.
  intros g first ticks f' t' M U. apply C82_up_iff_partial. apply C82_up_iff_partial in U as (T & [[Y _]|U]); [|split; auto].
  apply store_kind_yaml in Y. apply store_kind_mongo in M. congruence.
Qed.

(** ** C67 over a server's life *)
Lemma reload_latest ns : forall c0 c, fold_left (reload KYaml false) ns (Up c0) = Up c -> forall id a,
  entry_of c id = Some a <->
    ((exists pre n post, ns = pre ++ n :: post /\ configured (files n) id a /\ Forall (fun m => silent (files m) id) post) \/
     (Forall (fun m => silent (files m) id) ns /\ entry_of c0 id = Some a)).
Proof.
  induction ns as [|n ns IH]; intros c0 c H id a.
  - cbn in H. injection H as <-. split; [auto|]. intros [(pre & n & post & E & _)|[_ E]]; [destruct pre; discriminate E|exact E].
  - cbn [fold_left reload store_load] in H. destruct (sn_dir n) as [fs|] eqn:D; [|rewrite reload_dead in H by discriminate; discriminate H].
    destruct (yaml_scan fs c0) as [c1| |] eqn:Y; try (rewrite reload_dead in H by discriminate; discriminate H).
    apply yaml_scan_load in Y. assert (F : files n = map fst fs) by (unfold files; rewrite D; reflexivity). rewrite <- F in Y.
    rewrite (IH c1 c H id a), (load_entries _ _ _ Y id a). clear IH H. split.
    + intros [(pre & m & post & -> & C)|[S [C|[S1 E]]]].
      * left. exists (n :: pre), m, post. auto.
      * left. exists [], n, ns. auto.
      * right. split; [constructor; auto|exact E].
    + intros [(pre & m & post & E & C & S)|[S E]].
      * destruct pre as [|p pre]; cbn in E; injection E as -> ->; [right; auto|left; exists pre, m, post; auto].
      * inversion S; subst. right. auto.
Qed.
(** Full characterisation for the file store: an account is what the latest load that saw a file
    for it made of it. *)
Theorem C67_life_latest : forall g first ticks c isp p cid a, yaml_type (st_type g) -> store_run g first ticks = Up c -> lowered isp p ->
  (FindByCid c isp cid = Some a <->
   exists pre n post, first :: ticks = pre ++ n :: post /\ configured (files n) (p ++ [95] ++ cid) a /\
     Forall (fun m => silent (files m) (p ++ [95] ++ cid)) post).
Proof.
  intros g first ticks c isp p cid a Y H L. apply lowered_iff in L. subst p. change (FindByCid c isp cid) with (entry_of c (ToLower isp ++ [95] ++ cid)). set (id := ToLower isp ++ [95] ++ cid).
  assert (R : fold_left (reload KYaml false) (first :: ticks) (Up []) = Up c).
  { apply store_kind_yaml in Y. unfold store_run, store_New in H. rewrite Y in H. cbv beta iota in H. cbn [fold_left reload].
    destruct (store_load KYaml false first []); try discriminate H. destruct (ticker_period g <=? 0); [discriminate H|exact H]. }
  rewrite (reload_latest _ _ _ R id a). split; [intros [X|[_ X]]; [exact X|discriminate X]|auto].
Qed.
(** Hence an account whose file the last load read is as that file says (what a reload does). *)
Theorem C67_life_current_partial : forall g first ticks n c isp p cid a, yaml_type (st_type g) -> store_run g first (ticks ++ [n]) = Up c -> lowered isp p ->
  configured (files n) (p ++ [95] ++ cid) a -> FindByCid c isp cid = Some a.
Proof.
  intros g first ticks n c isp p cid a Y H L C. apply (C67_life_latest g first (ticks ++ [n]) c isp p cid a Y H L). exists (first :: ticks), n, []. auto.
Qed.
(** Refuted: an account once loaded stays valid when its file is removed (or can no longer be
    decoded), over any number of reloads. *)
Theorem C67_refuted_life : forall g first pre post c c' isp p cid a, yaml_type (st_type g) ->
  store_run g first pre = Up c -> store_run g first (pre ++ post) = Up c' -> lowered isp p ->
  FindByCid c isp cid = Some a -> Forall (fun n => silent (files n) (p ++ [95] ++ cid)) post -> FindByCid c' isp cid = Some a.
Proof.
  intros g first pre post c c' isp p cid a Y H H' L F S. apply (C67_life_latest g first pre c isp p cid a Y H L) in F as (x & n & y & E & C & S1).
  apply (C67_life_latest g first (pre ++ post) c' isp p cid a Y H' L). exists x, n, (y ++ post). split; [|split; [exact C|apply Forall_app; auto]].
  rewrite app_comm_cons, E, <- app_assoc. reflexivity.
Qed.
(** The same with the database store: a document removed, or behind one that does not decode. *)
Definition unseen (id : bytes) (n : scan) : Prop :=
  sn_ok n = false \/ forall d, In (Some d) (sn_docs n) -> ac_ISP d ++ [95] ++ ac_ClientId d <> id.
Lemma mongo_docs_other id docs : forall c, (forall d, In (Some d) docs -> ac_ISP d ++ [95] ++ ac_ClientId d <> id) -> entry_of (mongo_docs docs c) id = entry_of c id.
Proof.
  induction docs as [|[d|] docs IH]; intros c H; [reflexivity| |reflexivity]. cbn [mongo_docs]. rewrite IH by (intros e I; apply H; right; exact I).
  unfold entry_of. apply load_store_other; [exact beqb_iff|]. intros E. apply (H d (or_introl eq_refl)). congruence.
Qed.
Theorem C67_refuted_life_mongo : forall g first pre post c c' isp p cid, mongo_type (st_type g) ->
  store_run g first pre = Up c -> store_run g first (pre ++ post) = Up c' -> lowered isp p ->
  Forall (unseen (p ++ [95] ++ cid)) post -> FindByCid c' isp cid = FindByCid c isp cid.
Proof.
  intros g first pre post c c' isp p cid M H H' L S. apply lowered_iff in L. subst p.
  change (FindByCid c isp cid) with (entry_of c (ToLower isp ++ [95] ++ cid)). change (FindByCid c' isp cid) with (entry_of c' (ToLower isp ++ [95] ++ cid)).
  apply store_kind_mongo in M. unfold store_run, store_New in H, H'. rewrite M in H, H'.
  destruct (InitDB g) as [set|]; [|discriminate H]. destruct (store_load KMongo set first []) as [c1| |] eqn:E; try discriminate H.
  destruct (ticker_period g <=? 0); [discriminate H|]. rewrite fold_left_app, H in H'.
  assert (St : set = true) by (destruct set; [reflexivity|discriminate E]). subst set. clear - H' S.
  revert c H'. induction S as [|n post U S IH]; intros c H'; [cbn in H'; congruence|]. cbn [fold_left reload store_load] in H'. rewrite (IH _ H').
  unfold mongo_Load. destruct U as [->|U]; [reflexivity|]. destruct (sn_ok n); [|reflexivity]. apply mongo_docs_other, U.
Qed.

(** ** Cases *)
Definition demo_set : settings := Settings [] [] [] [] false 0.
Definition demo_scan : scan := Scan (Some (map (fun f => (f, true)) demo_files)) false [].
Definition empty_scan : scan := Scan (Some []) false [].
Example C82_case : (exists c, store_run demo_set demo_scan [demo_scan; empty_scan] = Up c) /\
  store_run demo_set demo_scan [Scan None false []] = Stopped /\ ~ fine (Scan None false []) /\
  store_run (Settings [120] [1] [1] [1] true 0) demo_scan [] = Crashed /\
  store_run (Settings [] [] [] [] false (-1)) demo_scan [] = Crashed /\
  (exists c, store_run (Settings [109;111;110;103;111] [1] [1] [1] true 5) empty_scan [demo_scan] = Up c).
Proof.
  split; [eexists; vm_compute; reflexivity|]. split; [vm_compute; reflexivity|]. split; [intros (fs & E & _); discriminate E|].
  split; [reflexivity|]. split; [vm_compute; reflexivity|]. eexists. vm_compute. reflexivity.
Qed.
Print Assumptions C82_up_iff_partial.
Print Assumptions C82_refuted_type.
Print Assumptions C82_refuted_uri.
Print Assumptions C82_refuted_reload.
Print Assumptions C82_mongo_stays.
Print Assumptions C67_life_latest.
Print Assumptions C67_life_current_partial.
Print Assumptions C67_refuted_life.
Print Assumptions C67_refuted_life_mongo.
(** The account 901 of cmpp is found after its file has gone; changed, it is replaced. *)
Example C67_life_case : match store_run demo_set demo_scan [empty_scan; empty_scan] with
  | Up c => FindByCid c [67;109;112;112] [57;48;49] = Some (with_ISP [99;109;112;112] (demo_acc [57;48;49] [1])) | _ => False end /\
  match store_run demo_set demo_scan [Scan (Some [(Dirent [67;77;80;80;95;57;48;49;46;121;97;109;108] false (Some (demo_acc [57;48;49] [9])), true)]) false []] with
  | Up c => FindByCid c [67;109;112;112] [57;48;49] = Some (with_ISP [99;109;112;112] (demo_acc [57;48;49] [9])) | _ => False end.
Proof. split; vm_compute; reflexivity. Qed.
