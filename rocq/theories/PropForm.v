(** * PropForm: SMGP submits and deliveries as texts (C133).
    Code: /repo/codec/smgp/submit.go:210-223 (Submit.String) and /repo/codec/smgp/deliver.go:157-172
    (Delivery.String).  Of the two texts only the part that stands for the message is modelled: the other
    fields are passed to fmt as they are.  Called through fmt (%v, %s) a panic of String is caught there
    and printed; the model is the method itself. *)
From Verif Require Import Base UtilsModel OptionsModel TlvModel CmppModel SmgpModel LogModel.
From Verif Require PropCmpp PropSmgp.

(** ** Model *)
(** codec/smgp/submit.go:211-214 and "msgContent: %#x...": the octets shown.  [room] are the octets
    that lie between the length and the capacity of the slice; msgContent[:6] may reach into them, and
    panics beyond the capacity. *)
Definition submit_text (room : bytes) (s : msubmit) : res bytes :=
  if 6 <? ms_msgLength s then slice (ms_content s ++ room) 0 6 else Ok (ms_content s).
(** codec/smgp/deliver.go:158-163: the text of the report (a nil report panics), or the whole content
    with blanks for line breaks. *)
Definition delivery_text (d : mdeliver) : res bytes :=
  if md_isReport d =? 1 then match md_report d with Some r => Ok (mreport_String r) | None => Panic end
  else Ok (map (fun c => if c =? 10 then 32 else c) (md_content d)).

(** ** Specification *)
(** At most the first six octets of a text. *)
Definition beginning (c t : bytes) : Prop := exists rest, c = t ++ rest /\ zlen t = Z.min 6 (zlen c).

(** ** Lemmas *)
Lemma beginning_only c t : beginning c t -> t = firstn 6 c.
Proof.
  intros (rest & -> & L). unfold zlen in L. rewrite app_length in L. destruct (Nat.le_gt_cases (length t) 6) as [H|H]; [|lia].
  destruct (Nat.eq_dec (length t) 6) as [E|E]; [rewrite firstn_app, E, Nat.sub_diag, firstn_O, app_nil_r, <- E, firstn_all; reflexivity|].
  destruct rest as [|x rest]; [rewrite app_nil_r, firstn_all2; [reflexivity|lia]|]. cbn [length] in L. lia.
Qed.
Lemma first_six c : beginning c (firstn 6 c).
Proof. exists (skipn 6 c). split; [symmetry; apply firstn_skipn|]. unfold zlen. rewrite firstn_length. lia. Qed.
Lemma slice6 (l : bytes) : slice l 0 6 = if 6 <=? zlen l then Ok (firstn 6 l) else Panic.
Proof. unfold slice. change (0 <=? 0) with true. change (0 <=? 6) with true. cbn [andb]. change (Z.to_nat 0) with 0%nat. change (Z.to_nat (6 - 0)) with 6%nat. reflexivity. Qed.

(** ** Theorems *)
(** Exactly when the text of a submit shows the first six octets, or the whole of a shorter content:
    the length field and the content are on the same side of six. *)
Theorem C133_exact_partial : forall room s, (exists t, submit_text room s = Ok t /\ beginning (ms_content s) t) <->
  (6 < ms_msgLength s /\ 6 <= zlen (ms_content s)) \/ (ms_msgLength s <= 6 /\ zlen (ms_content s) <= 6).
Proof.
  intros room s. unfold submit_text. destruct (Z.ltb_spec 6 (ms_msgLength s)) as [H|H].
  - rewrite slice6. split.
    + intros (t & E & B). destruct (Z.leb_spec 6 (zlen (ms_content s ++ room))) as [L|L]; [|discriminate E]. assert (T : t = firstn 6 (ms_content s ++ room)) by congruence. subst t. left. split; [exact H|].
      destruct B as (rest & _ & Z6). unfold zlen in *. rewrite firstn_length in Z6. lia.
    + intros [[_ L]|[L _]]; [|lia]. unfold zlen in *. replace (6 <=? Z.of_nat (length (ms_content s ++ room))) with true by (rewrite app_length; lia).
      eexists. split; [reflexivity|]. rewrite firstn_app. replace (6 - length (ms_content s))%nat with 0%nat by lia. rewrite firstn_O, app_nil_r. apply first_six.
  - split.
    + intros (t & E & B). injection E as <-. right. split; [lia|]. destruct B as (rest & _ & L). lia.
    + intros [[L _]|[_ L]]; [lia|]. eexists. split; [reflexivity|]. exists []. rewrite app_nil_r. split; [reflexivity|lia].
Qed.
(** What it does otherwise: it panics, it shows octets that are not of the message, or it shows more than six. *)
Theorem C133_otherwise : forall room s,
  (6 < ms_msgLength s -> zlen (ms_content s) + zlen room < 6 -> submit_text room s = Panic) /\
  (6 < ms_msgLength s -> zlen (ms_content s) < 6 <= zlen (ms_content s) + zlen room -> exists x y r, x <> [] /\ room = x ++ y /\ r = ms_content s ++ x /\ zlen r = 6 /\ submit_text room s = Ok r) /\
  (ms_msgLength s <= 6 -> 6 < zlen (ms_content s) -> exists t, submit_text room s = Ok t /\ 6 < zlen t /\ t = ms_content s).
Proof.
  intros room s. unfold submit_text. split; [|split].
  - intros H L. replace (6 <? ms_msgLength s) with true by lia. rewrite slice6. unfold zlen in *. rewrite app_length. replace (6 <=? _) with false by lia. reflexivity.
  - intros H L. replace (6 <? ms_msgLength s) with true by lia. rewrite slice6. unfold zlen in *. rewrite app_length. replace (6 <=? _) with true by lia.
    exists (firstn (6 - length (ms_content s)) room), (skipn (6 - length (ms_content s)) room), (firstn 6 (ms_content s ++ room)).
    rewrite firstn_skipn. split; [|split; [reflexivity|split; [|split; [rewrite firstn_length, app_length; lia|reflexivity]]]].
    + intros E. apply (f_equal (@length Z)) in E. rewrite firstn_length in E. cbn [length] in E. lia.
    + rewrite firstn_app, firstn_all2 by lia. reflexivity.
  - intros H L. replace (6 <? ms_msgLength s) with false by lia. exists (ms_content s). auto.
Qed.
(** Every packet that NewSubmit makes shows the beginning of its content, whatever lies behind it in memory. *)
Theorem C133_created : forall gbe ac phones content seq ops now g nxt msgs s room,
  smgp_NewSubmit gbe ac phones content seq ops now g nxt = Ok msgs -> In s msgs -> exists t, submit_text room s = Ok t /\ beginning (ms_content s) t.
Proof.
  intros gbe ac phones content seq ops now g nxt msgs s room E I. apply C133_exact_partial. assert (L : ms_msgLength s = zlen (ms_content s)); [|rewrite L; lia].
  unfold smgp_NewSubmit in E. destruct (gbe content) as [data|]; [|injection E as <-; destruct I]. destruct (PropSmgp.split140 g data) as (parts & P & _ & F & _). rewrite P in E. cbn [bind] in E.
  assert (U : forall b : bytes, zlen b <= 140 -> u8 (zlen b) = zlen b) by (intros b H; pose proof (zlen_nonneg b); unfold u8; apply Z.mod_small; lia).
  assert (G : forall ph tot (l : list bytes) i, Forall (fun p => zlen p <= 140) l -> In s (sm_parts (fun q len ml b tl => sm_base ac phones q (LoadMtOptions ops) now len ml b tl) ph tot seq nxt i l) -> ms_msgLength s = zlen (ms_content s)).
  { intros ph tot. induction l as [|x r IH]; intros i H J; [destruct J|]. inversion H as [|? ? Hx Hr]; subst. cbn [sm_parts In] in J. destruct J as [<-|J]; [apply U; exact Hx|eapply IH; [exact Hr|exact J]]. }
  destruct parts as [|b0 [|b1 r]].
  - injection E as <-. destruct I.
  - injection E as <-. destruct I as [<-|[]]. inversion F; subst. apply U. assumption.
  - match type of E with Ok ?x = _ => assert (W : msgs = x) by congruence end. rewrite W in I. eapply G; [exact F|exact I].
Qed.
Example C133_case_created : exists msgs s, smgp_NewSubmit Some PropCmpp.ac_demo [[49; 51; 56]] [72; 101; 108; 108; 111; 33; 33] 9 [] [86] 1 (fun i => i) = Ok msgs /\ In s msgs /\ submit_text [] s = Ok [72; 101; 108; 108; 111; 33].
Proof. eexists _, _. split; [reflexivity|]. split; [left; reflexivity|reflexivity]. Qed.
(** The last part of a long message with one to five octets after the long-message header, as every client may
    send it: the submit is read, its content is that text, and its text form panics when the slice has no more
    room than its content. *)
Theorem C133_refuted_panics : forall gbd ver seq c u v w, c <> [] -> (length c <= 5)%nat -> gbd c = Some c ->
  exists f s, MSubmit_Decode gbd ver seq f = Ok s /\ ms_content s = c /\ ms_msgLength s = 6 + zlen c /\ submit_text [] s = Panic /\
    exists a b, f = a ++ ([5; 0; 3; u; v; w] ++ c) ++ b.
Proof.
  intros gbd ver seq c u v w N L G.
  assert (P : exists s, MSubmit_Decode gbd ver seq ((repeat 0 105 ++ [6 + zlen c]) ++ ([5; 0; 3; u; v; w] ++ c) ++ repeat 0 8) = Ok s /\ ms_content s = c /\ ms_msgLength s = 6 + zlen c).
  { destruct c as [|c1 [|c2 [|c3 [|c4 [|c5 [|c6 c]]]]]]; [congruence| | | | | |cbn in L; lia];
    (eexists; split; [unfold MSubmit_Decode; cbn [bind at_ repeat app]; vm_compute; rewrite ?G; reflexivity|split; [cbn [ms_content]; rewrite ?G; reflexivity|reflexivity]]). }
  destruct P as (s & E & C & M). eexists _, s. split; [exact E|]. split; [exact C|]. split; [exact M|]. split; [|eexists _, _; reflexivity].
  apply (proj1 (C133_otherwise [] s)); rewrite ?M, ?C; unfold zlen; [destruct c; [congruence|cbn [length]; lia]|cbn [length]; lia].
Qed.
Example C133_case_panics : exists s, MSubmit_Decode Some 48 7 (repeat 0 105 ++ [8; 5; 0; 3; 1; 2; 2; 79; 75] ++ repeat 0 8) = Ok s /\ ms_content s = [79; 75] /\ submit_text [] s = Panic /\ submit_text (repeat 0 6) s = Ok [79; 75; 0; 0; 0; 0].
Proof. eexists. split; [vm_compute; reflexivity|]. split; [reflexivity|]. split; reflexivity. Qed.
(** A received delivery never panics; if it is no report its text shows the whole message, octet by octet with
    blanks for line breaks, not only the first six. *)
Theorem C133_refuted_whole : forall gbd ver seq f d, MDeliver_Decode gbd ver seq f = Ok d -> exists t, delivery_text d = Ok t /\
  (md_isReport d <> 1 -> zlen t = zlen (md_content d) /\ ~ In 10 t /\
    forall i c, nth_error (md_content d) i = Some c -> nth_error t i = Some (if c =? 10 then 32 else c)) /\
  (md_isReport d = 1 -> exists r, md_report d = Some r /\ t = mreport_String r).
Proof.
  intros gbd ver seq f d E. unfold MDeliver_Decode in E.
  repeat match type of E with bind ?r _ = Ok _ => let x := fresh "x" in let R := fresh "R" in destruct r as [x|?|] eqn:R; cbn [bind] in E; [|discriminate E|discriminate E]; try (destruct x as [? ?]) end.
  injection E as <-. unfold delivery_text. cbn [md_isReport md_report md_content].
  match goal with |- context [Z.eqb ?a 1] => destruct (Z.eqb_spec a 1) as [I|I]; [subst a|replace (a =? 1) with false in * by lia] end.
  - change (1 =? 1) with true in *. cbv iota in *. match goal with R : bind (slice f 69 _) _ = Ok _ |- _ => destruct (slice f 69 (69 + RptLen)) as [b'|?|]; cbn [bind] in R; [|discriminate R|discriminate R];
      destruct (mreport_Decode b') as [r|?|]; cbn [bind] in R; [|discriminate R|discriminate R]; injection R as <- <- end.
    eexists. split; [reflexivity|]. split; [intros X; congruence|]. intros _. exists r. auto.
  - eexists. split; [reflexivity|]. split; [|intros X; congruence]. intros _. unfold zlen. rewrite map_length. split; [reflexivity|]. split.
    + intros H. apply in_map_iff in H as (c & H & _). destruct (Z.eqb_spec c 10); lia.
    + intros i c H. rewrite nth_error_map, H. reflexivity.
Qed.
Example C133_case_whole : exists d, MDeliver_Decode Some 48 7 (repeat 0 68 ++ [9; 65; 66; 10; 67; 68; 69; 70; 71; 72] ++ repeat 0 8) = Ok d /\ delivery_text d = Ok [65; 66; 32; 67; 68; 69; 70; 71; 72].
Proof. eexists. split; vm_compute; reflexivity. Qed.
Example C133_case_exact : exists s, MSubmit_Decode Some 48 7 (repeat 0 105 ++ [9; 65; 66; 10; 67; 68; 69; 70; 71; 72] ++ repeat 0 8) = Ok s /\ 6 < ms_msgLength s /\ 6 <= zlen (ms_content s) /\ submit_text [] s = Ok [65; 66; 10; 67; 68; 69].
Proof. eexists. split; [vm_compute; reflexivity|]. split; [reflexivity|]. split; [vm_compute; discriminate|reflexivity]. Qed.
Print Assumptions C133_exact_partial.
Print Assumptions C133_otherwise.
Print Assumptions C133_refuted_panics.
Print Assumptions C133_refuted_whole.
Print Assumptions C133_created.
