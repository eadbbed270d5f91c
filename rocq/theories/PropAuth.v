(** * PropAuth: properties C66-C68 (credential stores, handed-out account data). *)
From Verif Require Import Base OptionsModel ClientModel ClientProofs ServerProofs AuthModel.

(** ** Specification *)
Definition upper (c : Z) : Prop := 65 <= c <= 90.
(** [l] is [s] in lower case. *)
Definition lowered (s l : bytes) : Prop := Forall2 (fun c d => (upper c /\ d = c + 32) \/ (~ upper c /\ d = c)) s l.
Definition dot_yaml : bytes := [46;121;97;109;108].
Definition dot_yml : bytes := [46;121;109;108].
(** The file configures the client with this key (protocol_id): its name is the key, in any case,
    with one of the two extensions. *)
Definition named (f : dirent) (id : bytes) : Prop :=
  de_dir f = false /\ exists base ext, (ext = dot_yaml \/ ext = dot_yml) /\ de_name f = base ++ ext /\ base <> [] /\ lowered base id.
(** The account made of the file's content [d]: the protocol is taken from the name, the rest as written. *)
Definition the_entry (id : bytes) (d a : authconf) : Prop :=
  ac_ISP a = firstn 4 id /\ ac_ClientId a = ac_ClientId d /\ ac_LoginName a = ac_LoginName d /\
  ac_SharedSecret a = ac_SharedSecret d /\ ac_Version a = ac_Version d /\ ac_NeedReport a = ac_NeedReport d /\
  ac_SmsDisplayNo a = ac_SmsDisplayNo d /\ ac_ServiceId a = ac_ServiceId d /\
  ac_DefaultMsgLevel a = ac_DefaultMsgLevel d /\ ac_FeeUserType a = ac_FeeUserType d /\
  ac_FeeTerminalType a = ac_FeeTerminalType d /\ ac_FeeTerminalId a = ac_FeeTerminalId d /\
  ac_FeeType a = ac_FeeType d /\ ac_FeeCode a = ac_FeeCode d /\ ac_FixedFee a = ac_FixedFee d /\
  ac_LinkId a = ac_LinkId d /\ ac_MtValidDuration a = ac_MtValidDuration d /\ ac_MaxConns a = ac_MaxConns d /\
  ac_MtWindowSize a = ac_MtWindowSize d /\ ac_Throughput a = ac_Throughput d.
(** The entry that counts: the last readable file of that name. *)
Definition configured (files : list dirent) (id : bytes) (a : authconf) : Prop :=
  exists pre f post d, files = pre ++ f :: post /\ named f id /\ de_data f = Some d /\ the_entry id d a /\
    (forall g, In g post -> named g id -> de_data g = None).

(** ** Lemmas *)
Lemma the_entry_iff id d a : the_entry id d a <-> a = with_ISP (firstn 4 id) d.
Proof.
  unfold the_entry, with_ISP. split; [|intros ->; destruct d; cbn; repeat split].
  destruct a, d. cbn. intros H. repeat match goal with H : _ /\ _ |- _ => destruct H as [? H] end. subst. reflexivity.
Qed.
Lemma lowered_iff s l : lowered s l <-> l = ToLower s.
Proof.
  revert l. induction s as [|c s IH]; intros l; unfold lowered, ToLower in *; cbn.
  - split; [inversion 1; reflexivity|intros ->; constructor].
  - assert (X : forall d, ((upper c /\ d = c + 32) \/ (~ upper c /\ d = c)) <-> d = low c).
    { intros d. unfold upper, low. destruct (65 <=? c) eqn:A, (c <=? 90) eqn:B; cbn [andb]; try apply Z.leb_le in A; try apply Z.leb_gt in A; try apply Z.leb_le in B; try apply Z.leb_gt in B; lia. }
    split.
    + inversion 1; subst. f_equal; [apply X; assumption|apply IH; assumption].
    + intros ->. constructor; [apply X; reflexivity|apply IH; reflexivity].
Qed.
Lemma lowered_len s l : lowered s l -> length s = length l.
Proof. induction 1; cbn; congruence. Qed.
Lemma HasSuffix_iff s suf : HasSuffix s suf = true <-> exists base, s = base ++ suf.
Proof.
  unfold HasSuffix. rewrite andb_true_iff, beqb_iff, Z.leb_le. unfold zlen. split.
  - intros [L E]. exists (firstn (length s - length suf) s). rewrite <- E at 2. symmetry. apply firstn_skipn.
  - intros [b ->]. rewrite app_length. split; [lia|]. replace (length b + length suf - length suf)%nat with (length b) by lia. rewrite skipn_app, skipn_all, Nat.sub_diag. reflexivity.
Qed.
Lemma cut_app base suf n : n = zlen suf -> cut n (base ++ suf) = base.
Proof. intros ->. unfold cut, zlen. rewrite app_length, Nat2Z.inj_add. replace (Z.to_nat (Z.of_nat (length base) + Z.of_nat (length suf) - Z.of_nat (length suf))) with (length base) by lia. rewrite firstn_app, firstn_all, Nat.sub_diag. cbn. apply app_nil_r. Qed.
Lemma suffix_inj (a b x y : bytes) : a ++ x = b ++ y -> length x = length y -> a = b /\ x = y.
Proof.
  revert b. induction a as [|c a IH]; intros [|d b] H L; cbn in H.
  - auto.
  - subst x. cbn in L. rewrite app_length in L. lia.
  - subst y. cbn in L. rewrite app_length in L. lia.
  - injection H as -> H. destruct (IH b H L) as [-> ->]. auto.
Qed.
Lemma not_both b b' : b ++ dot_yaml = b' ++ dot_yml -> False.
Proof.
  intros H. assert (E : (b ++ [46]) ++ [121;97;109;108] = b' ++ dot_yml) by (rewrite <- H, <- app_assoc; reflexivity).
  apply suffix_inj in E; [|reflexivity]. destruct E as [_ E]. discriminate E.
Qed.
Lemma file_key_iff name base : base <> [] -> (file_key name = base <-> exists ext, (ext = dot_yaml \/ ext = dot_yml) /\ name = base ++ ext).
Proof.
  intros NE. unfold file_key. change ext_yaml with dot_yaml. change ext_yml with dot_yml. split.
  - destruct (HasSuffix name dot_yml) eqn:S4.
    + apply HasSuffix_iff in S4 as [b ->]. rewrite cut_app by reflexivity. intros <-. exists dot_yml. auto.
    + destruct (HasSuffix name dot_yaml) eqn:S5; [|intros E; congruence]. apply HasSuffix_iff in S5 as [b ->]. rewrite cut_app by reflexivity. intros <-. exists dot_yaml. auto.
  - intros (ext & [-> | ->] & ->).
    + destruct (HasSuffix (base ++ dot_yml) dot_yml) eqn:S4.
      * destruct (HasSuffix (base ++ dot_yaml) dot_yml) eqn:S6.
        -- apply HasSuffix_iff in S6 as [b E]. exfalso. exact (not_both _ _ E).
        -- rewrite (proj2 (HasSuffix_iff _ _) (ex_intro _ base eq_refl)). apply cut_app. reflexivity.
      * rewrite (proj2 (HasSuffix_iff _ _) (ex_intro _ base eq_refl)) in S4. discriminate.
    + rewrite (proj2 (HasSuffix_iff _ _) (ex_intro _ base eq_refl)). apply cut_app. reflexivity.
Qed.
Lemma named_iff f id : named f id <-> de_dir f = false /\ file_key (de_name f) <> [] /\ id = ToLower (file_key (de_name f)).
Proof.
  unfold named. split.
  - intros (D & base & ext & X & N & NE & L). apply lowered_iff in L. pose proof (proj2 (file_key_iff (de_name f) base NE) (ex_intro _ ext (conj X N))) as K. rewrite K. auto.
  - intros (D & NE & ->). split; [exact D|]. destruct (proj1 (file_key_iff (de_name f) _ NE) eq_refl) as (ext & X & N). exists (file_key (de_name f)), ext. repeat split; auto. apply lowered_iff. reflexivity.
Qed.
Lemma slice04 (id x : bytes) : slice id 0 4 = Ok x <-> 4 <= zlen id /\ x = firstn 4 id.
Proof.
  unfold slice. destruct ((0 <=? 0) && (0 <=? 4) && (4 <=? zlen id)) eqn:E.
  - rewrite !andb_true_iff, !Z.leb_le in E. change (Z.to_nat 0) with 0%nat. change (Z.to_nat (4 - 0)) with 4%nat. cbn [skipn]. split; [intros X; injection X as <-; split; [lia|reflexivity]|intros [_ ->]; reflexivity].
  - split; [discriminate|]. intros [L _]. rewrite (proj2 (Z.leb_le 4 (zlen id)) L) in E. discriminate E.
Qed.
Definition entry_of (c : cache) (id : bytes) : option authconf := load beqb id c.
(** One file. *)
Lemma file_step f r c c' : yaml_Load (f :: r) c = Ok c' -> exists c1, yaml_Load r c1 = Ok c' /\
  forall id, (forall d, named f id -> de_data f = Some d -> 4 <= zlen id /\ entry_of c1 id = Some (with_ISP (firstn 4 id) d)) /\
             ((~ named f id \/ de_data f = None) -> entry_of c1 id = entry_of c id).
Proof.
  cbn [yaml_Load]. destruct (de_dir f) eqn:D.
  - intros H. exists c. split; [exact H|]. intros id. split; [|reflexivity]. intros d [X _]. congruence.
  - destruct (file_key (de_name f)) as [|k0 kr] eqn:K.
    + intros H. exists c. split; [exact H|]. intros id. split; [|reflexivity]. intros d N. apply named_iff in N as (_ & X & _). congruence.
    + unfold unmarshal. destruct (de_data f) as [cli|] eqn:DD.
      * destruct (slice (ToLower (k0 :: kr)) 0 4) as [isp|e|] eqn:SL; cbn [bind]; try discriminate. intros H. apply slice04 in SL as [L ->]. eexists. split; [exact H|]. intros id. split.
        -- intros d N Q. injection Q as <-. apply named_iff in N as (_ & _ & E). rewrite K in E. subst id. split; [exact L|]. unfold entry_of. apply load_store_same. apply beqb_iff. reflexivity.
        -- intros [N|N]; [|discriminate N]. unfold entry_of. apply load_store_other; [exact beqb_iff|]. intros E. apply N. apply named_iff. rewrite K. split; [exact D|]. split; [discriminate|exact E].
      * cbn [bind]. intros H. exists c. split; [exact H|]. intros id. split; [discriminate|reflexivity].
Qed.
Lemma named_dec f id : {named f id} + {~ named f id}.
Proof.
  destruct (de_dir f) eqn:D. { right. intros [X _]. congruence. }
  destruct (file_key (de_name f)) eqn:K. { right. intros N. apply named_iff in N as (_ & X & _). congruence. }
  destruct (list_eq_dec Z.eq_dec id (ToLower (file_key (de_name f)))) as [E|E].
  - left. apply named_iff. rewrite K in *. split; [exact D|]. split; [discriminate|exact E].
  - right. intros N. apply named_iff in N as (_ & _ & X). congruence.
Qed.
Definition silent (files : list dirent) (id : bytes) : Prop := forall g, In g files -> named g id -> de_data g = None.
Lemma silent_dec files id : {silent files id} + {~ silent files id}.
Proof.
  induction files as [|f r IH]; [left; intros g []|]. destruct IH as [IH|IH].
  - destruct (named_dec f id) as [N|N].
    + destruct (de_data f) eqn:E.
      * right. intros X. rewrite (X f (or_introl eq_refl) N) in E. discriminate E.
      * left. intros g [<-|I] Ng; [exact E|exact (IH g I Ng)].
    + left. intros g [<-|I] Ng; [contradiction|exact (IH g I Ng)].
  - right. intros X. apply IH. intros g I. apply X. right. exact I.
Qed.
Lemma load_entries files : forall c0 c, yaml_Load files c0 = Ok c -> forall id a,
  entry_of c id = Some a <-> (configured files id a \/ (silent files id /\ entry_of c0 id = Some a)).
Proof.
  induction files as [|f r IH]; intros c0 c H id a.
  - cbn in H. injection H as <-. split.
    + intros E. right. split; [intros g []|exact E].
    + intros [(pre & f & post & d & E & _)|[_ E]]; [destruct pre; discriminate E|exact E].
  - destruct (file_step f r c0 c H) as (c1 & H1 & X). specialize (X id). destruct X as [X1 X2]. rewrite (IH c1 c H1 id a). clear IH H. split.
    + intros [(pre & g & post & d & E & C)|[S E]].
      * left. exists (f :: pre), g, post, d. rewrite E. auto.
      * destruct (named_dec f id) as [N|N].
        -- destruct (de_data f) as [d|] eqn:DD.
           ++ left. exists [], f, r, d. split; [reflexivity|]. split; [exact N|]. split; [exact DD|]. destruct (X1 d N eq_refl) as [_ Y]. rewrite Y in E. injection E as <-. split; [apply the_entry_iff; reflexivity|exact S].
           ++ right. rewrite (X2 (or_intror eq_refl)) in E. split; [|exact E]. intros g [<-|I] Ng; [exact DD|exact (S g I Ng)].
        -- right. rewrite (X2 (or_introl N)) in E. split; [|exact E]. intros g [<-|I] Ng; [contradiction|exact (S g I Ng)].
    + intros [(pre & g & post & d & E & Ng & Dg & T & S)|[S E]].
      * destruct pre as [|p pre]; cbn in E; injection E as -> E.
        -- subst r. right. split; [exact S|]. destruct (X1 d Ng Dg) as [_ Y]. rewrite Y. apply the_entry_iff in T. rewrite T. reflexivity.
        -- left. exists pre, g, post, d. auto.
      * right. split; [intros g I; apply S; right; exact I|]. rewrite X2; [exact E|]. destruct (named_dec f id) as [N|N]; [right; exact (S f (or_introl eq_refl) N)|left; exact N].
Qed.
Lemma configured_exists files id : ~ silent files id -> exists a, configured files id a.
Proof.
  induction files as [|f r IH]; intros N; [exfalso; apply N; intros g []|].
  destruct (silent_dec r id) as [S|S].
  - destruct (named_dec f id) as [Nf|Nf].
    + destruct (de_data f) as [d|] eqn:E.
      * exists (with_ISP (firstn 4 id) d), [], f, r, d. split; [reflexivity|]. split; [exact Nf|]. split; [exact E|]. split; [apply the_entry_iff; reflexivity|exact S].
      * exfalso. apply N. intros g [<-|I] Ng; [exact E|exact (S g I Ng)].
    + exfalso. apply N. intros g [<-|I] Ng; [contradiction|exact (S g I Ng)].
  - destruct (IH S) as (a & pre & g & post & d & -> & R). exists a, (f :: pre), g, post, d. auto.
Qed.

(** ** C66: credential lookup *)
(** The file store.  Full statement for clients without upper-case letters in their id: a lookup
    after loading gives the entry configured for exactly this key, and nothing if there is none. *)
Theorem C66_yaml_partial : forall files c isp p cid, yaml_Load files [] = Ok c -> lowered isp p ->
  (forall a, FindByCid c isp cid = Some a <-> configured files (p ++ [95] ++ cid) a) /\
  (FindByCid c isp cid = None <-> silent files (p ++ [95] ++ cid)).
Proof.
  intros files c isp p cid H L. apply lowered_iff in L. subst p. change (FindByCid c isp cid) with (entry_of c (ToLower isp ++ [95] ++ cid)). set (id := ToLower isp ++ [95] ++ cid).
  assert (X : forall a, entry_of c id = Some a <-> configured files id a).
  { intros a. rewrite (load_entries files [] c H id a). split; [intros [Y|[_ Y]]; [exact Y|discriminate Y]|auto]. }
  split; [exact X|]. destruct (silent_dec files id) as [S|S].
  - split; [intros _; exact S|]. intros _. destruct (entry_of c id) as [a|] eqn:E; [|reflexivity]. exfalso. destruct (proj1 (X a) eq_refl) as (pre & f & post & d & -> & N & D & _). rewrite (S f) in D; [discriminate D| |exact N]. apply in_or_app. right. left. reflexivity.
  - split; [|contradiction]. intros E. exfalso. destruct (configured_exists files id S) as (a & C). apply X in C. congruence.
Qed.
(** Hence a client whose file is named after it is found, whatever other files there are, if no
    other file has its key and its id has no upper-case letters. *)
Lemma lowered_same s : Forall (fun c => ~ upper c) s -> lowered s s.
Proof. induction 1; constructor; auto. Qed.
Theorem C66_found_partial : forall pre post isp p cid ext d c name, yaml_Load (pre ++ Dirent name false (Some d) :: post) [] = Ok c ->
  lowered isp p -> Forall (fun x => ~ upper x) cid -> (ext = dot_yaml \/ ext = dot_yml) -> name = isp ++ [95] ++ cid ++ ext ->
  (forall g, In g post -> ~ named g (p ++ [95] ++ cid)) ->
  exists a, the_entry (p ++ [95] ++ cid) d a /\ forall isp', lowered isp' p -> FindByCid c isp' cid = Some a.
Proof.
  intros pre post isp p cid ext d c name H L U X -> O. exists (with_ISP (firstn 4 (p ++ [95] ++ cid)) d). split; [apply the_entry_iff; reflexivity|]. intros isp' L'. apply (proj1 (C66_yaml_partial _ c isp' p cid H L')). exists pre, (Dirent (isp ++ [95] ++ cid ++ ext) false (Some d)), post, d.
  split; [reflexivity|]. split.
  - split; [reflexivity|]. exists (isp ++ [95] ++ cid), ext. split; [exact X|]. split; [cbn; rewrite <- !app_assoc; reflexivity|]. split; [destruct isp; discriminate|].
    apply Forall2_app; [exact L|]. apply Forall2_app; [apply lowered_same; constructor; [unfold upper; lia|constructor]|apply lowered_same, U].
  - split; [reflexivity|]. split; [apply the_entry_iff; reflexivity|]. intros g I N. destruct (O g I N).
Qed.
(** Refuted: a client whose id has an upper-case letter is never found in the file store, whatever
    the files are. *)
Theorem C66_refuted_upper : forall files c isp cid, yaml_Load files [] = Ok c -> Exists upper cid -> FindByCid c isp cid = None.
Proof.
  intros files c isp cid H U. apply (proj2 (C66_yaml_partial files c isp _ cid H (proj2 (lowered_iff isp _) eq_refl))). intros g I (D & base & ext & _ & _ & _ & L). exfalso.
  assert (X : Forall (fun x => ~ upper x) (ToLower isp ++ [95] ++ cid)).
  { revert L. generalize (ToLower isp ++ [95] ++ cid). intros l L. induction L as [|x y s l [[A ->]|[A ->]] L IH]; constructor; auto. unfold upper in *. lia. }
  apply Forall_app in X as [_ X]. apply Forall_app in X as [_ X]. rewrite Exists_exists in U. destruct U as (x & Ix & Ux). rewrite Forall_forall in X. exact (X x Ix Ux).
Qed.
(** A load ends unless a readable file has a name of less than four characters before the
    extension; then it crashes. *)
Theorem C66_load_ends : forall files c0,
  (exists c, yaml_Load files c0 = Ok c) <-> (forall f id d, In f files -> named f id -> de_data f = Some d -> 4 <= zlen id).
Proof.
  induction files as [|f r IH]; intros c0; [split; [intros _ f id d []|intros _; exists c0; reflexivity]|]. split.
  - intros (c & H) g id d [<-|I] N D.
    + destruct (file_step f r c0 c H) as (c1 & _ & X). exact (proj1 (proj1 (X id) d N D)).
    + destruct (file_step f r c0 c H) as (c1 & H1 & _). exact (proj1 (IH c1) (ex_intro _ c H1) g id d I N D).
  - intros X. assert (R : forall c1, exists c, yaml_Load r c1 = Ok c) by (intros c1; apply IH; intros g id d I; apply X; right; exact I).
    cbn [yaml_Load]. destruct (de_dir f) eqn:D; [apply R|]. destruct (file_key (de_name f)) as [|z l] eqn:K; [apply R|]. unfold unmarshal. destruct (de_data f) as [d|] eqn:E; [|cbn; apply R].
    assert (N : named f (ToLower (z :: l))) by (apply named_iff; rewrite K; split; [exact D|split; [discriminate|reflexivity]]).
    rewrite (proj2 (slice04 _ _) (conj (X f _ d (or_introl eq_refl) N E) eq_refl)). cbn [bind]. apply R.
Qed.
Theorem C66_refuted_short : forall files c0 f id d, In f files -> named f id -> de_data f = Some d -> zlen id < 4 -> yaml_Load files c0 = Panic.
Proof.
  induction files as [|g r IH]; intros c0 f id d I N D L; [destruct I|]. cbn [yaml_Load].
  destruct (de_dir g) eqn:Dg. { destruct I as [->|I]; [destruct N; congruence|]. eapply IH; eassumption. }
  destruct (file_key (de_name g)) as [|z l] eqn:K. { destruct I as [->|I]; [apply named_iff in N as (_ & X & _); congruence|]. eapply IH; eassumption. }
  unfold unmarshal. destruct (de_data g) as [cl|] eqn:E.
  - destruct (slice (ToLower (z :: l)) 0 4) as [x|e|] eqn:SL; cbn [bind].
    + destruct I as [->|I]; [|eapply IH; eassumption]. apply named_iff in N as (_ & _ & ->). rewrite K in L. apply slice04 in SL. lia.
    + destruct (slice_noerr _ _ _ _ SL).
    + reflexivity.
  - cbn [bind]. destruct I as [->|I]; [congruence|]. eapply IH; eassumption.
Qed.
(** The database store: [decodable docs]: the documents before the first one that does not decode. *)
Fixpoint decodable (docs : list (option authconf)) : list authconf := match docs with Some d :: r => d :: decodable r | _ => [] end.
Definition keyed (d : authconf) (p cid : bytes) : Prop := ac_ISP d = p /\ ac_ClientId d = cid.
Lemma key_split (a b x y : bytes) : ~ In 95 a -> ~ In 95 b -> a ++ [95] ++ x = b ++ [95] ++ y -> a = b /\ x = y.
Proof.
  revert b. induction a as [|c a IH]; intros [|d b] Na Nb H; cbn in H.
  - injection H as ->. auto.
  - injection H as <- _. exfalso. apply Nb. left. reflexivity.
  - injection H as -> _. exfalso. apply Na. left. reflexivity.
  - injection H as -> H. destruct (IH b) as [-> ->]; auto; intros I; [apply Na|apply Nb]; right; exact I.
Qed.
Lemma low_95 s : ~ In 95 s -> ~ In 95 (ToLower s).
Proof. intros N I. apply N. unfold ToLower in I. rewrite in_map_iff in I. destruct I as (c & E & I). unfold low in E. destruct ((65 <=? c) && (c <=? 90)) eqn:B; [|congruence]. rewrite andb_true_iff, !Z.leb_le in B. lia. Qed.
Theorem C66_mongo_partial : forall docs isp p cid a, lowered isp p -> ~ In 95 isp -> (forall d, In d (decodable docs) -> ~ In 95 (ac_ISP d)) ->
  (FindByCid (mongo_Load true docs []) isp cid = Some a <->
   exists pre post, decodable docs = pre ++ a :: post /\ keyed a p cid /\ forall g, In g post -> ~ keyed g p cid).
Proof.
  intros docs isp p cid a L NI ND. apply lowered_iff in L. subst p. unfold FindByCid, mongo_Load.
  assert (G : forall c0, load beqb (ToLower isp ++ [95] ++ cid) (mongo_docs docs c0) = Some a <->
    ((exists pre post, decodable docs = pre ++ a :: post /\ keyed a (ToLower isp) cid /\ forall g, In g post -> ~ keyed g (ToLower isp) cid) \/
     ((forall g, In g (decodable docs) -> ~ keyed g (ToLower isp) cid) /\ load beqb (ToLower isp ++ [95] ++ cid) c0 = Some a))).
  { induction docs as [|[d|] r IH]; intros c0; cbn [mongo_docs decodable].
    - split; [intros E; right; split; [intros g []|exact E]|intros [(pre & post & E & _)|[_ E]]; [destruct pre; discriminate E|exact E]].
    - rewrite IH by (intros g I; apply ND; right; exact I).
      assert (KS : keyed d (ToLower isp) cid \/ ~ keyed d (ToLower isp) cid).
      { unfold keyed. destruct (list_eq_dec Z.eq_dec (ac_ISP d) (ToLower isp)), (list_eq_dec Z.eq_dec (ac_ClientId d) cid); tauto. }
      assert (SAME : keyed d (ToLower isp) cid -> load beqb (ToLower isp ++ [95] ++ cid) (store_at beqb (ac_ISP d ++ [95] ++ ac_ClientId d) d c0) = Some d).
      { intros [-> ->]. apply load_store_same. apply beqb_iff. reflexivity. }
      assert (OTHER : ~ keyed d (ToLower isp) cid -> load beqb (ToLower isp ++ [95] ++ cid) (store_at beqb (ac_ISP d ++ [95] ++ ac_ClientId d) d c0) = load beqb (ToLower isp ++ [95] ++ cid) c0).
      { intros N. apply load_store_other; [exact beqb_iff|]. intros E. apply N. apply key_split in E; [destruct E; split; auto|apply low_95, NI|apply ND; left; reflexivity]. }
      split.
      + intros [(pre & post & E & K & O)|[S E]].
        * left. exists (d :: pre), post. rewrite E. auto.
        * destruct KS as [K|K].
          -- rewrite (SAME K) in E. injection E as ->. left. exists [], (decodable r). auto.
          -- rewrite (OTHER K) in E. right. split; [|exact E]. intros g [<-|I]; auto.
      + intros [(pre & post & E & K & O)|[S E]].
        * destruct pre as [|q pre]; cbn in E; injection E as -> E.
          -- right. subst post. split; [exact O|apply SAME, K].
          -- left. exists pre, post. auto.
        * right. split; [intros g I; apply S; right; exact I|]. rewrite OTHER; [exact E|]. apply S. left. reflexivity.
    - split; [intros E; right; split; [intros g []|exact E]|intros [(pre & post & E & _)|[_ E]]; [destruct pre; discriminate E|exact E]]. }
  rewrite G. split; [intros [X|[_ X]]; [exact X|discriminate X]|auto].
Qed.
(** Refuted for the database store: a protocol written with an upper-case letter in the database is
    never found; and everything after a document that does not decode is left out. *)
Theorem C66_refuted_mongo_case : forall docs isp cid, ~ In 95 isp -> (forall d, In d (decodable docs) -> ~ In 95 (ac_ISP d)) ->
  (forall d, In d (decodable docs) -> ac_ClientId d = cid -> Exists upper (ac_ISP d)) -> FindByCid (mongo_Load true docs []) isp cid = None.
Proof.
  intros docs isp cid NI ND U. destruct (FindByCid _ isp cid) as [a|] eqn:E; [|reflexivity]. exfalso.
  apply (C66_mongo_partial docs isp (ToLower isp) cid a) in E as (pre & post & D & [K1 K2] & _); auto; [|apply lowered_iff; reflexivity].
  assert (I : In a (decodable docs)) by (rewrite D; apply in_or_app; right; left; reflexivity). specialize (U a I K2). rewrite K1 in U. rewrite Exists_exists in U. destruct U as (x & Ix & Ux).
  unfold ToLower in Ix. rewrite in_map_iff in Ix. destruct Ix as (y & <- & _). unfold upper, low in Ux. destruct ((65 <=? y) && (y <=? 90)) eqn:B; [rewrite andb_true_iff, !Z.leb_le in B; lia|rewrite andb_false_iff, !Z.leb_gt in B; lia].
Qed.
Theorem C66_refuted_mongo_decode : forall pre post post' c0, mongo_Load true (pre ++ None :: post) c0 = mongo_Load true (pre ++ None :: post') c0.
Proof. intros pre post post'. unfold mongo_Load. induction pre as [|[d|] r IH]; intros c0; cbn; auto. Qed.

(** ** C67: revoked clients disappear at reload *)
(** Refuted for every history: whoever could be looked up before a load, of either store, can be
    looked up after it, whatever the source now holds. *)
Theorem C67_refuted_yaml : forall files c0 c isp cid, yaml_Load files c0 = Ok c -> FindByCid c0 isp cid <> None -> FindByCid c isp cid <> None.
Proof.
  intros files c0 c isp cid H N E. change (FindByCid c isp cid) with (entry_of c (ToLower isp ++ [95] ++ cid)) in E. change (FindByCid c0 isp cid) with (entry_of c0 (ToLower isp ++ [95] ++ cid)) in N.
  destruct (silent_dec files (ToLower isp ++ [95] ++ cid)) as [S|S].
  - destruct (entry_of c0 (ToLower isp ++ [95] ++ cid)) as [a|] eqn:E0; [|congruence]. pose proof (proj2 (load_entries files c0 c H _ a) (or_intror (conj S E0))). congruence.
  - destruct (configured_exists _ _ S) as (a & C). pose proof (proj2 (load_entries files c0 c H _ a) (or_introl C)). congruence.
Qed.
Theorem C67_refuted_mongo : forall ok docs c0 isp cid, FindByCid c0 isp cid <> None -> FindByCid (mongo_Load ok docs c0) isp cid <> None.
Proof.
  intros ok docs c0 isp cid. unfold mongo_Load, FindByCid. destruct ok; [|auto]. generalize (ToLower isp ++ [95] ++ cid). intros id. revert c0.
  induction docs as [|[d|] r IH]; intros c0 N; cbn [mongo_docs]; auto. apply IH. destruct (list_eq_dec Z.eq_dec id (ac_ISP d ++ [95] ++ ac_ClientId d)) as [->|X].
  - rewrite load_store_same by (apply beqb_iff; reflexivity). discriminate.
  - rewrite load_store_other; [exact N|exact beqb_iff|exact X].
Qed.
(** What a reload does do: clients still configured show their new entry, and nobody appears who is
    neither configured now nor was there before.  (Missing for C67: the removal, refuted above.) *)
Theorem C67_partial : forall files c0 c isp p cid, yaml_Load files c0 = Ok c -> lowered isp p ->
  (forall a, configured files (p ++ [95] ++ cid) a -> FindByCid c isp cid = Some a) /\
  (silent files (p ++ [95] ++ cid) -> FindByCid c isp cid = FindByCid c0 isp cid).
Proof.
  intros files c0 c isp p cid H L. apply lowered_iff in L. subst p. change (FindByCid c isp cid) with (entry_of c (ToLower isp ++ [95] ++ cid)). change (FindByCid c0 isp cid) with (entry_of c0 (ToLower isp ++ [95] ++ cid)).
  set (id := ToLower isp ++ [95] ++ cid). split.
  - intros a C. apply (load_entries files c0 c H). auto.
  - intros S. destruct (entry_of c0 id) as [a|] eqn:E0.
    + apply (load_entries files c0 c H). auto.
    + destruct (entry_of c id) as [a|] eqn:E; [|reflexivity]. apply (load_entries files c0 c H) in E as [(pre & f & post & d & -> & N & D & _)|[_ E]]; [|congruence]. rewrite (S f) in D; [discriminate D| |exact N]. apply in_or_app. right. left. reflexivity.
Qed.

(** ** C68: handed-out account data is a faithful, independent copy *)
(** The object [o] of type [t] holds [v] in the field [n] of type [ty]. *)
Definition field (t : stype) (o : obj) (n : String.string) (ty : ftype) (v : fval) : Prop := exists i, nth_error t i = Some (n, ty) /\ nth_error o i = Some v.
Lemma put_nth_spec {A} (l : list A) i v j : nth_error (put_nth l i v) j = if Nat.eqb i j then match nth_error l i with Some _ => Some v | None => None end else nth_error l j.
Proof.
  unfold put_nth. revert i j. induction l as [|x l IH]; intros [|i] [|j]; cbn [firstn skipn app nth_error Nat.eqb]; auto.
  destruct (Nat.eqb i j); reflexivity.
Qed.
Lemma put_nth_len {A} (l : list A) i v : length (put_nth l i v) = length l.
Proof. unfold put_nth. revert i. induction l as [|x l IH]; intros [|i]; cbn; auto. Qed.
Lemma write_field_spec (m : memory) a i v (o : obj) : nth_error m a = Some o -> nth_error (write_field m a i v) a = Some (put_nth o i v) /\
  (forall x, x <> a -> nth_error (write_field m a i v) x = nth_error m x) /\ length (write_field m a i v) = length m.
Proof.
  intros H. unfold write_field. rewrite H. split; [|split].
  - rewrite put_nth_spec, Nat.eqb_refl, H. reflexivity.
  - intros x N. rewrite put_nth_spec. rewrite (proj2 (Nat.eqb_neq a x)) by auto. reflexivity.
  - apply put_nth_len.
Qed.
Lemma fbn_spec t n k : NoDup (map fst t) -> (forall j ty, field_by_name t n k = Some (j, ty) <-> (k <= j)%nat /\ nth_error t (j - k) = Some (n, ty)).
Proof.
  revert k. induction t as [|[m ty0] r IH]; intros k ND j ty; cbn [field_by_name].
  - split; [discriminate|]. intros [_ H]. destruct (j - k)%nat; discriminate H.
  - inversion ND; subst. destruct (String.eqb m n) eqn:E.
    + apply String.eqb_eq in E. subst m. split.
      * intros X. injection X as <- <-. rewrite Nat.sub_diag. auto.
      * intros [L X]. destruct (j - k)%nat as [|q] eqn:Q.
        -- cbn in X. injection X as ->. replace j with k by lia. reflexivity.
        -- cbn in X. exfalso. apply H1. apply nth_error_In in X. apply (in_map fst) in X. exact X.
    + apply String.eqb_neq in E. rewrite IH by assumption. split.
      * intros [L X]. split; [lia|]. replace (j - k)%nat with (S (j - S k)) by lia. exact X.
      * intros [L X]. destruct (j - k)%nat as [|q] eqn:Q; cbn in X; [congruence|]. split; [lia|]. replace (j - S k)%nat with q by lia. exact X.
Qed.
Lemma ftype_eqb_iff a b : ftype_eqb a b = true <-> a = b.
Proof. destruct a, b; cbn; split; congruence. Qed.
(** What the copying loop leaves at each place of the target. *)
Lemma copy_spec (ft : stype) (fr : nat) (fo : obj) : NoDup (map fst ft) -> length fo = length ft -> forall (rest : stype) (i a : nat) (m : memory) (o : obj), fr <> a -> nth_error m fr = Some fo -> nth_error m a = Some o -> length o = (i + length rest)%nat ->
  exists o', nth_error (copy_fields ft fr rest i a m) a = Some o' /\ length o' = length o /\ length (copy_fields ft fr rest i a m) = length m /\
    (forall x, x <> a -> nth_error (copy_fields ft fr rest i a m) x = nth_error m x) /\
    (forall j, (j < i)%nat -> nth_error o' j = nth_error o j) /\
    (forall j n ty, nth_error rest j = Some (n, ty) ->
       (forall v, field ft fo n ty v -> nth_error o' (i + j) = Some v) /\
       ((forall v, ~ field ft fo n ty v) -> nth_error o' (i + j) = nth_error o (i + j))).
Proof.
  intros ND LF. induction rest as [|[n ty] r IH]; intros i a m o NE HF HO LO.
  - cbn. exists o. repeat split; auto; intros; destruct j; discriminate.
  - cbn [copy_fields]. rewrite HF.
    set (m1 := match field_by_name ft n 0 with Some (j, ty') => _ | None => m end).
    assert (P : exists o1, nth_error m1 a = Some o1 /\ length o1 = length o /\ length m1 = length m /\ (forall x, x <> a -> nth_error m1 x = nth_error m x) /\
                (forall j, j <> i -> nth_error o1 j = nth_error o j) /\ (forall v, field ft fo n ty v -> nth_error o1 i = Some v) /\ ((forall v, ~ field ft fo n ty v) -> nth_error o1 i = nth_error o i)).
    { subst m1. destruct (field_by_name ft n 0) as [[j ty']|] eqn:FB.
      - apply (fbn_spec ft n 0 ND) in FB as [_ FB]. rewrite Nat.sub_0_r in FB.
        assert (U : forall v w, field ft fo n w v -> w = ty' /\ nth_error fo j = Some v).
        { intros v w (k & X & Y). assert (k = j).
          { apply (NoDup_nth_error (map fst ft)); [exact ND| |]. - rewrite map_length. apply nth_error_Some. congruence. - rewrite !nth_error_map, X, FB. reflexivity. }
          subst k. rewrite FB in X. injection X as ->. auto. }
        destruct (ftype_eqb ty' ty) eqn:TE.
        + apply ftype_eqb_iff in TE. subst ty'. destruct (nth_error fo j) as [v|] eqn:V.
          2:{ apply nth_error_None in V. assert (j < length ft)%nat by (apply nth_error_Some; congruence). lia. }
          destruct (write_field_spec m a i v o HO) as (W1 & W2 & W3). exists (put_nth o i v). split; [exact W1|]. split; [apply put_nth_len|]. split; [exact W3|]. split; [exact W2|]. split.
          * intros k K. rewrite put_nth_spec, (proj2 (Nat.eqb_neq i k)) by auto. reflexivity.
          * assert (B : nth_error (put_nth o i v) i = Some v). { rewrite put_nth_spec, Nat.eqb_refl. destruct (nth_error o i) eqn:Q; [reflexivity|]. apply nth_error_None in Q. cbn in LO. lia. }
            split; [intros w X; destruct (U w ty X) as [_ Y]; congruence|]. intros X. exfalso. apply (X v). exists j. auto.
        + exists o. repeat split; auto. intros v X. destruct (U v ty X) as [Y _]. subst ty'. rewrite (proj2 (ftype_eqb_iff ty ty) eq_refl) in TE. discriminate TE.
      - exists o. repeat split; auto. intros v (k & X & _). exfalso. pose proof (proj2 (fbn_spec ft n 0 ND k ty)) as Z. rewrite Nat.sub_0_r in Z. rewrite (Z (conj (Nat.le_0_l _) X)) in FB. discriminate FB. }
    destruct P as (o1 & A1 & A2 & A3 & A4 & A5 & A6 & A7).
    destruct (IH (S i) a m1 o1 NE ltac:(rewrite A4 by auto; exact HF) A1 ltac:(cbn in LO; lia)) as (o' & B1 & B2 & B3 & B4 & B5 & B6).
    exists o'. split; [exact B1|]. split; [congruence|]. split; [congruence|]. split; [intros x X; rewrite B4, A4 by auto; reflexivity|]. split; [intros j J; rewrite B5, A5 by lia; reflexivity|].
    intros [|j] n' ty' X; cbn in X.
    + injection X as <- <-. rewrite Nat.add_0_r. rewrite B5 by lia. auto.
    + destruct (B6 j n' ty' X) as [C1 C2]. replace (i + S j)%nat with (S i + j)%nat by lia. split; [exact C1|]. intros N. rewrite C2 by exact N. apply A5. lia.
Qed.
Lemma field_place t o n ty v i : NoDup (map fst t) -> nth_error t i = Some (n, ty) -> field t o n ty v -> nth_error o i = Some v.
Proof.
  intros ND E (k & X & Y). assert (k = i); [|congruence]. apply (NoDup_nth_error (map fst t)); [exact ND| |].
  - rewrite map_length. apply nth_error_Some. congruence.
  - rewrite !nth_error_map, X, E. reflexivity.
Qed.
(** Copying between any two struct types: fields with the same name and type are copied, the other
    fields of the target stay, and so does everything else in memory, the source included. *)
Theorem C68_copy : forall (ft tt : stype) fr a (m : memory) (fo o : obj), NoDup (map fst ft) -> NoDup (map fst tt) -> fr <> a ->
  nth_error m fr = Some fo -> length fo = length ft -> nth_error m a = Some o -> length o = length tt ->
  let m' := StructCopy ft (Some fr) tt (Some a) m in
  exists o', nth_error m' a = Some o' /\ length o' = length tt /\ length m' = length m /\ (forall x, x <> a -> nth_error m' x = nth_error m x) /\
    (forall n ty v w, field ft fo n ty v -> field tt o n ty w -> field tt o' n ty v) /\
    (forall n ty w, (forall v, ~ field ft fo n ty v) -> field tt o n ty w -> field tt o' n ty w).
Proof.
  intros ft tt fr a m fo o NF NT NE HF LF HO LO m'. destruct (copy_spec ft fr fo NF LF tt 0 a m o NE HF HO LO) as (o' & B1 & B2 & B3 & B4 & _ & B6).
  exists o'. split; [exact B1|]. split; [congruence|]. split; [exact B3|]. split; [exact B4|]. split.
  - intros n ty v w F (i & X & Y). exists i. split; [exact X|]. exact (proj1 (B6 i n ty X) v F).
  - intros n ty w N (i & X & Y). exists i. split; [exact X|]. pose proof (proj2 (B6 i n ty X) N) as Z. cbn [Nat.add] in Z. congruence.
Qed.
(** The account data: for every stored entry, whatever else is in memory, a session gets a new
    object that holds in every field what the entry holds there; the entry and everything else stay. *)
Theorem C68_handed_out : forall (m : memory) a (o : obj), nth_error m a = Some o -> length o = length Client_t ->
  exists b o' m', FindAuthConf (Some a) m = (Some b, m') /\ nth_error m b = None /\ nth_error m' b = Some o' /\
    (forall n ty v, field Client_t o n ty v <-> field AuthConf_t o' n ty v) /\
    (forall x, (x < length m)%nat -> nth_error m' x = nth_error m x).
Proof.
  intros m a o HA LA. assert (LT : (a < length m)%nat) by (apply nth_error_Some; congruence).
  assert (ND : NoDup (map fst Client_t)). { repeat (constructor; [cbn; intuition discriminate|]). constructor. }
  set (b := length m). set (m0 := m ++ [zero_of AuthConf_t]).
  assert (Hb : nth_error m0 b = Some (zero_of AuthConf_t)) by (subst m0 b; rewrite nth_error_app2, Nat.sub_diag by lia; reflexivity).
  assert (Ha : nth_error m0 a = Some o) by (subst m0; rewrite nth_error_app1 by exact LT; exact HA).
  destruct (copy_spec Client_t a o ND LA AuthConf_t 0 b m0 _ ltac:(subst b; lia) Ha Hb eq_refl) as (o' & B1 & B2 & B3 & B4 & _ & B6).
  exists b, o', (copy_fields Client_t a AuthConf_t 0 b m0). split; [reflexivity|]. split; [apply nth_error_None; subst b; lia|]. split; [exact B1|]. split.
  - intros n ty v. split.
    + intros F. destruct F as (i & X & Y). exists i. split; [exact X|]. apply (proj1 (B6 i n ty X)). exists i. auto.
    + intros (i & X & Y). assert (i < length o)%nat. { rewrite LA. change (length Client_t) with (length AuthConf_t). apply nth_error_Some. congruence. }
      destruct (nth_error o i) as [w|] eqn:W; [|apply nth_error_None in W; lia]. assert (F : field Client_t o n ty w) by (exists i; auto). pose proof (proj1 (B6 i n ty X) w F) as Q. cbn [Nat.add] in Q. rewrite Q in Y. injection Y as <-. exact F.
  - intros x X. rewrite B4 by (subst b; lia). subst m0. apply nth_error_app1. exact X.
Qed.
(** Independence: any sequence of writes to the fields of the handed-out object leaves the stored
    entry as it is, and any sequence of writes to the entry leaves the handed-out object as it is. *)
Definition writes (b : nat) (ws : list (nat * fval)) (m : memory) : memory := fold_left (fun m w => write_field m b (fst w) (snd w)) ws m.
Lemma writes_other b ws : forall (m : memory) x, x <> b -> nth_error (writes b ws m) x = nth_error m x.
Proof.
  induction ws as [|[i v] ws IH]; intros m x N; [reflexivity|]. change (nth_error (writes b ws (write_field m b i v)) x = nth_error m x). rewrite IH by exact N. unfold write_field. destruct (nth_error m b); [|reflexivity]. rewrite put_nth_spec, (proj2 (Nat.eqb_neq b x)) by auto. reflexivity.
Qed.
Theorem C68_independent : forall (m : memory) a (o : obj) b m' ws, nth_error m a = Some o -> length o = length Client_t -> FindAuthConf (Some a) m = (Some b, m') ->
  nth_error (writes b ws m') a = Some o /\ nth_error (writes a ws m') b = nth_error m' b.
Proof.
  intros m a o b m' ws HA LA F. destruct (C68_handed_out m a o HA LA) as (b1 & o' & m1 & F1 & FR & _ & _ & S). rewrite F in F1. injection F1 as <- <-.
  assert (N : a <> b) by congruence. rewrite !writes_other by auto. split; [|reflexivity]. rewrite S; [exact HA|]. apply nth_error_Some. congruence.
Qed.

(** ** Cases *)
Definition demo_acc (id secret : bytes) : authconf := AuthConf [] id [] secret 48 1 [49;48] [] 1 2 0 [] [] [] [] [] 0 2 16 100.
(** CMPP_901234.yaml, sgip_x.yml (does not decode), smgp_AB.yml, a directory, notes.txt *)
Definition demo_files : list dirent :=
  [Dirent [67;77;80;80;95;57;48;49;46;121;97;109;108] false (Some (demo_acc [57;48;49] [1]));
   Dirent [115;103;105;112;95;120;46;121;109;108] false None;
   Dirent [115;109;103;112;95;65;66;46;121;109;108] false (Some (demo_acc [65;66] [2]));
   Dirent [99;109;112;112;95;49;46;121;109;108] true (Some (demo_acc [49] [3]));
   Dirent [110;111;116;101;115;46;116;120;116] false (Some (demo_acc [50] [4]))].
Example C66_case : match yaml_Load demo_files [] with
  | Ok c => FindByCid c [67;109;112;112] [57;48;49] = Some (with_ISP [99;109;112;112] (demo_acc [57;48;49] [1])) /\ FindByCid c [115;103;105;112] [120] = None /\
            FindByCid c [115;109;103;112] [65;66] = None /\ FindByCid c [99;109;112;112] [49] = None /\
            match yaml_Load [] c with Ok c' => FindByCid c' [99;109;112;112] [57;48;49] <> None | _ => False end
  | _ => False end.
Proof. vm_compute. repeat split; discriminate. Qed.
Example C66_case_short : yaml_Load [Dirent ([97] ++ dot_yml) false (Some (demo_acc [97] [1]))] [] = Panic. Proof. reflexivity. Qed.
Example C66_case_mongo : let up := with_ISP [67;77;80;80] (demo_acc [49] [1]) in let lo := with_ISP [99;109;112;112] (demo_acc [50] [2]) in
  FindByCid (mongo_Load true [Some up; Some lo; None; Some lo] []) [99;109;112;112] [49] = None /\ FindByCid (mongo_Load true [Some up; Some lo] []) [67;77;80;80] [50] = Some lo.
Proof. vm_compute. auto. Qed.
Definition demo_obj : obj := map (fun '(_, ty) => match ty with TString => VText [7] | _ => VNum 5 end) Client_t.
Example C68_case : FindAuthConf (Some 1%nat) [[VNum 3]; demo_obj] = (Some 2%nat, [[VNum 3]; demo_obj; demo_obj]). Proof. reflexivity. Qed.

Print Assumptions C66_yaml_partial. Print Assumptions C66_found_partial. Print Assumptions C66_refuted_upper. Print Assumptions C66_load_ends. Print Assumptions C66_refuted_short.
Print Assumptions C66_mongo_partial. Print Assumptions C66_refuted_mongo_case. Print Assumptions C66_refuted_mongo_decode.
Print Assumptions C67_refuted_yaml. Print Assumptions C67_refuted_mongo. Print Assumptions C67_partial.
Print Assumptions C68_copy. Print Assumptions C68_handed_out. Print Assumptions C68_independent.
