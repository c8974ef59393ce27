(** What the generator does to files. *)
From Verif Require Import GoLex XLex Gram GParse Emit FileSys.
Open Scope string_scope.
Open Scope list_scope.

(** [P] at this point and at every later one. *)
Fixpoint always (strict : bool) (P : cmd -> fsys -> Prop) (c : cmd) (fs : fsys) {struct c} : Prop :=
  P c fs /\ match c with Done _ => True | Do a k => forall r fs', eff strict fs a r fs' -> always strict P (k r) fs' end.
Lemma always_reach strict P x y : reach strict x y -> always strict P (fst x) (snd x) -> P (fst y) (snd y).
Proof.
  induction 1 as [[c fs]|a k fs r fs' y He _ IH]; cbn [fst snd] in *; intros A; [destruct c; cbn in A; tauto|].
  cbn in A. destruct A as [_ A]. apply IH. apply A. exact He.
Qed.
Lemma always_weaken strict (P Q : cmd -> fsys -> Prop) c : (forall c fs, P c fs -> Q c fs) -> forall fs, always strict P c fs -> always strict Q c fs.
Proof.
  intros H. induction c as [st|a k IH]; intros fs [A B]; cbn; (split; [apply H; exact A|]); [exact I|]. intros r fs' He. apply IH, B, He.
Qed.

(** The two agree except perhaps at the paths in [T]. *)
Definition same (T : list string) (fs fs0 : fsys) : Prop := forall p, ~ In p T -> fs p = fs0 p.
Lemma same_refl T fs : same T fs fs. Proof. intros p _. reflexivity. Qed.
Lemma same_set T fs fs0 p c : In p T -> same T fs fs0 -> same T (fset fs p c) fs0.
Proof. intros I H q Nq. unfold fset. destruct (String.eqb_spec q p) as [->|N]; [contradiction|]. apply H, Nq. Qed.
Lemma same_incl T T' fs fs0 : incl T T' -> same T fs fs0 -> same T' fs fs0.
Proof. intros I H p Np. apply H. intros X. apply Np, I, X. Qed.
Lemma fset_same fs p c : fset fs p c p = c. Proof. unfold fset. rewrite String.eqb_refl. reflexivity. Qed.
Lemma fset_other fs p c q : q <> p -> fset fs p c q = fs q. Proof. intros N. unfold fset. destruct (String.eqb_spec q p); congruence. Qed.

Definition touches (a : act) : option string :=
  match a with ARead _ => None | ACreate p | AAppend p _ | ATrunc p | ARemove p => Some p end.
Lemma eff_same strict fs a r fs' T fs0 : eff strict fs a r fs' -> (forall p, touches a = Some p -> In p T) -> same T fs fs0 -> same T fs' fs0.
Proof. intros He Hp Hs. destruct He; cbn in Hp; try exact Hs; apply same_set; auto. Qed.

Lemma tmp_ne s : s +++ ".tmp" <> s.
Proof. intros E. apply (f_equal String.length) in E. assert (H : forall a b, String.length (a +++ b) = (String.length a + String.length b)%nat) by (induction a; intros; cbn; [reflexivity|rewrite IHa; reflexivity]). rewrite H in E. cbn in E. lia. Qed.

Section Run.
Variables (i o t : string) (fl : flags) (gofmt : string -> option string) (partial pieces : string -> list write).
Variable fs0 : fsys.
(** The temporary files of this run. *)
Definition tmps : list string := outTmp o :: (if with_types t then [toutTmp t] else []).
Lemma in_out : In (outTmp o) tmps. Proof. left. reflexivity. Qed.
Lemma in_tout : with_types t = true -> In (toutTmp t) tmps. Proof. intros H. unfold tmps. rewrite H. right. left. reflexivity. Qed.
Lemma in_dest : In (if with_types t then toutTmp t else outTmp o) tmps.
Proof. unfold tmps. destruct (with_types t); [right|]; left; reflexivity. Qed.

(** *** Invariants *)
Lemma defers_inv strict (P : cmd -> fsys -> Prop) l st T fs : (forall fs c, same T fs fs0 -> P c fs) -> incl l T -> same T fs fs0 -> always strict P (defers l st) fs.
Proof.
  intros HP. revert fs. induction l as [|p l IH]; intros fs I S; cbn; (split; [apply HP, S|]); [exact Logic.I|].
  intros r fs' He. apply IH; [intros x X; apply I; right; exact X|]. eapply eff_same; [exact He| |exact S]. intros q [= <-]. apply I. left. reflexivity.
Qed.
Lemma writes_inv strict (P : cmd -> fsys -> Prop) ws k T fs : (forall fs c, same T fs fs0 -> P c fs) -> incl tmps T -> same T fs fs0 ->
  (forall fs, same T fs fs0 -> always strict P k fs) -> always strict P (writes o t ws k) fs.
Proof.
  intros HP I S Hk. revert fs S. induction ws as [|[s|s] ws IH]; intros fs S; cbn [writes]; [apply Hk, S| |].
  - split; [apply HP, S|]. intros r fs' He. apply IH. eapply eff_same; [exact He| |exact S]. intros q [= <-]. apply I. left. reflexivity.
  - split; [apply HP, S|]. intros r fs' He. apply IH. eapply eff_same; [exact He| |exact S]. intros q [= <-]. apply I, in_dest.
Qed.
(** A run of refmt: until the formatting has succeeded nothing is touched, then only the target. *)
Lemma refmt_inv strict (P : cmd -> fsys -> Prop) inf outf fail k T fs (ok : Prop) :
  (forall fs c, same T fs fs0 -> P c fs) -> (forall fs c, ok -> same (outf :: T) fs fs0 -> P c fs) ->
  same T fs fs0 ->
  (forall txt f, fs inf = Some txt -> gofmt txt = Some f -> ok) ->
  (forall fs, same T fs fs0 -> always strict P fail fs) -> (ok -> forall fs, same (outf :: T) fs fs0 -> always strict P fail fs) ->
  (ok -> forall fs, same (outf :: T) fs fs0 -> always strict P k fs) ->
  always strict P (refmt gofmt inf outf fail k) fs.
Proof.
  intros H1 H2 S Hok F1 F2 K. unfold refmt. split; [apply H1, S|]. intros r fs' He. inversion He; subst; try (apply F1, S).
  destruct (gofmt c) as [txt|] eqn:Ef; [|apply F1, S]. assert (Ok : ok) by (eapply Hok; eassumption).
  assert (S2 : same (outf :: T) fs' fs0) by (eapply same_incl; [|exact S]; intros x X; right; exact X).
  split; [apply H1, S|]. intros r fs2 He2. assert (S3 : same (outf :: T) fs2 fs0).
  { eapply eff_same; [exact He2| |exact S2]. intros q [= <-]. left. reflexivity. }
  inversion He2; subst; [|apply F2; assumption].
  split; [apply H2; assumption|]. intros r fs3 He3. assert (S4 : same (outf :: T) fs3 fs0).
  { eapply eff_same; [exact He3| |exact S3]. intros q [= <-]. left. reflexivity. }
  destruct r; [apply K; assumption|apply F2; assumption].
Qed.

(** The input parses and its definitions can be emitted. *)
Definition parses : Prop := exists src ds ws, fs0 i = Some src /\ front src = Some ds /\ emit_list (emit fl) ds = Some ws.
Definition formatted : Prop := exists txt f, gofmt txt = Some f.

(** At every point: nothing but temporary files differs, or the input parsed and some text was
    formatted and only the output differs as well, or also the types file. *)
Definition stage (fs : fsys) : Prop :=
  same tmps fs fs0 \/ (parses /\ formatted /\ (same (o :: tmps) fs fs0 \/ same (t :: o :: tmps) fs fs0 /\ with_types t = true)).

Lemma main_order strict : always strict (fun _ fs => stage fs) (main i o t fl gofmt partial pieces) fs0.
Proof.
  set (P := fun (_ : cmd) fs => stage fs).
  assert (P0 : forall fs c, same tmps fs fs0 -> P c fs) by (intros fs c S; left; exact S).
  assert (P1 : forall fs c, parses -> formatted -> same (o :: tmps) fs fs0 -> P c fs) by (intros fs c A B S; right; auto).
  assert (S0 : same tmps fs0 fs0) by apply same_refl.
  assert (I1 : incl [outTmp o] tmps) by (intros x [<-|[]]; left; reflexivity).
  assert (I2 : with_types t = true -> incl [toutTmp t; outTmp o] tmps) by (intros W0 x [<-|[<-|[]]]; [apply in_tout, W0|apply in_out]).
  assert (Ic : forall x, incl tmps (x :: tmps)) by (intros x y Y; right; exact Y).
  unfold main. destruct (String.eqb i ""); [split; [apply P0, S0|exact I]|]. destruct (String.eqb o ""); [split; [apply P0, S0|exact I]|].
  split; [apply P0, S0|]. intros r fs' He.
  assert (Bd : forall src, fs0 i = Some src -> forall ds, incl ds tmps -> forall fs, same tmps fs fs0 ->
    always strict P (xdrParse o t fl partial pieces src (defers ds Panicked)
      (refmt gofmt (outTmp o) o (defers ds Panicked)
         (if with_types t then refmt gofmt (toutTmp t) t (defers ds Panicked) (defers ds Success) else defers ds Success))) fs).
  { intros src Hi ds Ids fs S. unfold xdrParse.
    assert (Fail : forall fs, same tmps fs fs0 -> always strict P (writes o t (partial src) (defers ds Panicked)) fs).
    { intros fs1 S'. eapply writes_inv; [exact P0|apply incl_refl|exact S'|]. intros fs2 S2. eapply defers_inv; [exact P0|exact Ids|exact S2]. }
    destruct (front src) as [l|] eqn:Ef; [|apply Fail, S]. destruct (emit_list (emit fl) l) as [ws|] eqn:Ee; [|apply Fail, S].
    assert (Pa : parses) by (exists src, l, ws; auto).
    eapply writes_inv; [exact P0|apply incl_refl|exact S|]. intros fs2 S2.
    eapply (refmt_inv _ _ _ _ _ _ tmps _ formatted); [exact P0|intros; apply P1; assumption|exact S2|intros txt f _ E; exists txt, f; exact E| | |].
    - intros fs3 S3. eapply defers_inv; [exact P0|exact Ids|exact S3].
    - intros Fo fs3 S3. eapply (defers_inv _ _ _ _ (o :: tmps)); [intros; apply P1; assumption|intros x X; right; apply Ids, X|exact S3].
    - intros Fo fs3 S3. destruct (with_types t) eqn:Et.
      + assert (P2 : forall fs c, same (t :: o :: tmps) fs fs0 -> P c fs) by (intros fs4 c S4; right; split; [exact Pa|split; [exact Fo|right; auto]]).
        eapply (refmt_inv _ _ _ _ _ _ (o :: tmps) _ True); [intros; apply P1; assumption|intros fs4 c _ S4; apply P2, S4|exact S3|auto| | |].
        * intros fs4 S4. eapply (defers_inv _ _ _ _ (o :: tmps)); [intros; apply P1; assumption|intros x X; right; apply Ids, X|exact S4].
        * intros _ fs4 S4. eapply (defers_inv _ _ _ _ (t :: o :: tmps)); [intros; apply P2; assumption|intros x X; right; right; apply Ids, X|exact S4].
        * intros _ fs4 S4. eapply (defers_inv _ _ _ _ (t :: o :: tmps)); [intros; apply P2; assumption|intros x X; right; right; apply Ids, X|exact S4].
      + eapply (defers_inv _ _ _ _ (o :: tmps)); [intros; apply P1; assumption|intros x X; right; apply Ids, X|exact S3]. }
  assert (S1 : same tmps fs' fs0) by (eapply eff_same; [exact He|discriminate|exact S0]).
  destruct r as [src|]; [|split; [apply P0, S1|exact I]].
  assert (Hi : fs0 i = Some src) by (inversion He; subst; assumption).
  split; [apply P0, S1|]. intros r fs2 He2.
  assert (S2 : same tmps fs2 fs0) by (eapply eff_same; [exact He2|intros q [= <-]; left; reflexivity|exact S1]).
  destruct r as [u|]; [|split; [apply P0, S2|exact I]].
  split; [apply P0, S2|]. intros rh fsh Heh.
  assert (Sh : same tmps fsh fs0) by (eapply eff_same; [exact Heh|intros q [= <-]; left; reflexivity|exact S2]).
  split; [apply P0, Sh|]. intros r fs3 He3.
  assert (S3 : same tmps fs3 fs0) by (eapply eff_same; [exact He3|intros q [= <-]; left; reflexivity|exact Sh]).
  cbv zeta. destruct (with_types t) eqn:Et.
  - split; [apply P0, S3|]. intros r' fs4 He4.
    assert (S4 : same tmps fs4 fs0) by (eapply eff_same; [exact He4|intros q [= <-]; apply in_tout, Et|exact S3]).
    destruct r' as [u'|]; [|apply (defers_inv _ _ _ _ tmps); [exact P0|exact I1|exact S4]].
    split; [apply P0, S4|]. intros r' fs5 He5.
    assert (S5 : same tmps fs5 fs0) by (eapply eff_same; [exact He5|intros q [= <-]; apply in_tout, Et|exact S4]).
    apply Bd; auto.
  - apply Bd; assumption.
Qed.

(** Contents: what a file that is not temporary holds is what it held, or the beginning of
    some formatted code. *)
Definition prefix_of_formatted (c : option string) : Prop := exists txt a b, gofmt txt = Some (a +++ b) /\ c = Some a.
Definition made (fs : fsys) : Prop := forall p, ~ In p tmps -> fs p = fs0 p \/ prefix_of_formatted (fs p).
Lemma made_tmp strict fs a r fs' : eff strict fs a r fs' -> (forall p, touches a = Some p -> In p tmps) -> made fs -> made fs'.
Proof.
  intros He Hp M q Nq. specialize (M q Nq). destruct He; cbn in Hp; try exact M;
    (rewrite fset_other; [exact M|]; intros ->; apply Nq, Hp; reflexivity).
Qed.
Lemma made_defers strict l st fs : incl l tmps -> made fs -> always strict (fun _ fs => made fs) (defers l st) fs.
Proof.
  revert fs. induction l as [|p l IH]; intros fs I M; cbn; (split; [exact M|]); [exact Logic.I|].
  intros r fs' He. apply IH; [intros x X; apply I; right; exact X|]. eapply made_tmp; [exact He| |exact M]. intros q [= <-]. apply I. left. reflexivity.
Qed.
Lemma made_writes strict ws k fs : made fs -> (forall fs, made fs -> always strict (fun _ fs => made fs) k fs) -> always strict (fun _ fs => made fs) (writes o t ws k) fs.
Proof.
  intros M Hk. revert fs M. induction ws as [|[s|s] ws IH]; intros fs M; cbn [writes]; [apply Hk, M| |]; (split; [exact M|]); intros r fs' He; apply IH.
  - eapply made_tmp; [exact He| |exact M]. intros q [= <-]. left. reflexivity.
  - eapply made_tmp; [exact He| |exact M]. intros q [= <-]. apply in_dest.
Qed.
Lemma made_refmt strict inf outf fail k fs : made fs -> (forall fs, made fs -> always strict (fun _ fs => made fs) fail fs) ->
  (forall fs, made fs -> always strict (fun _ fs => made fs) k fs) -> always strict (fun _ fs => made fs) (refmt gofmt inf outf fail k) fs.
Proof.
  intros M F K. unfold refmt. split; [exact M|]. intros r fs' He. inversion He; subst; try (apply F, M).
  destruct (gofmt c) as [txt|] eqn:Ef; [|apply F, M].
  split; [exact M|]. intros r fs2 He2. inversion He2; subst; [|apply F, M].
  assert (M2 : made (fset fs' outf (Some ""))).
  { intros q Nq. destruct (String.eqb_spec q outf) as [->|N]; [|rewrite fset_other by exact N; apply M, Nq].
    rewrite fset_same. right. exists c, "", txt. split; [exact Ef|reflexivity]. }
  split; [exact M2|]. intros r fs3 He3. inversion He3; subst.
  - match goal with E : fset _ outf _ outf = Some _ |- _ => rewrite fset_same in E; injection E as <- end. apply K. intros q Nq. destruct (String.eqb_spec q outf) as [->|N].
    + rewrite fset_same. right. exists c, txt, "". split; [|reflexivity]. rewrite Ef. f_equal. clear. induction txt; cbn; [reflexivity|f_equal; exact IHtxt].
    + rewrite fset_other by exact N. apply M2, Nq.
  - match goal with E : fset _ outf _ outf = None |- _ => rewrite fset_same in E; discriminate end.
  - match goal with E : fset _ outf _ outf = Some _ |- _ => rewrite fset_same in E; injection E as <- end. apply F. intros q Nq. destruct (String.eqb_spec q outf) as [->|N].
    + rewrite fset_same. right. exists c, s1, s2. split; [exact Ef|reflexivity].
    + rewrite fset_other by exact N. apply M2, Nq.
Qed.
Lemma main_made strict : always strict (fun _ fs => made fs) (main i o t fl gofmt partial pieces) fs0.
Proof.
  assert (M0 : made fs0) by (intros p _; left; reflexivity).
  assert (Bd : forall src ds, incl ds tmps -> forall fs, made fs ->
    always strict (fun _ fs => made fs) (xdrParse o t fl partial pieces src (defers ds Panicked)
      (refmt gofmt (outTmp o) o (defers ds Panicked)
         (if with_types t then refmt gofmt (toutTmp t) t (defers ds Panicked) (defers ds Success) else defers ds Success))) fs).
  { intros src ds Ids fs M. unfold xdrParse.
    assert (Fail : forall fs, made fs -> always strict (fun _ fs => made fs) (writes o t (partial src) (defers ds Panicked)) fs)
      by (intros; apply made_writes; [assumption|intros; apply made_defers; assumption]).
    destruct (front src); [|apply Fail, M]. destruct (emit_list (emit fl) l); [|apply Fail, M].
    apply made_writes; [exact M|]. intros fs2 M2. apply made_refmt; [exact M2|intros; apply made_defers; assumption|].
    intros fs3 M3. destruct (with_types t); [apply made_refmt; [exact M3| |]; intros|]; apply made_defers; assumption. }
  unfold main. destruct (String.eqb i ""); [split; [exact M0|exact I]|]. destruct (String.eqb o ""); [split; [exact M0|exact I]|].
  split; [exact M0|]. intros r fs' He. assert (M1 : made fs') by (eapply made_tmp; [exact He|discriminate|exact M0]).
  destruct r as [src|]; [|split; [exact M1|exact I]]. split; [exact M1|]. intros r fs2 He2.
  assert (M2 : made fs2) by (eapply made_tmp; [exact He2|intros q [= <-]; left; reflexivity|exact M1]).
  destruct r as [u|]; [|split; [exact M2|exact I]]. split; [exact M2|]. intros rh fsh Heh.
  assert (Mh : made fsh) by (eapply made_tmp; [exact Heh|intros q [= <-]; left; reflexivity|exact M2]).
  split; [exact Mh|]. intros r fs3 He3.
  assert (M3 : made fs3) by (eapply made_tmp; [exact He3|intros q [= <-]; left; reflexivity|exact Mh]).
  cbv zeta. pose proof in_tout as It. unfold tmps in It |- *. destruct (with_types t) eqn:Et.
  - assert (Etm : tmps = [outTmp o; toutTmp t]) by (unfold tmps; rewrite Et; reflexivity).
    split; [exact M3|]. intros r' fs4 He4.
    assert (M4 : made fs4) by (eapply made_tmp; [exact He4|intros q [= <-]; apply in_tout, Et|exact M3]).
    destruct r' as [u'|]; [|apply made_defers; [intros x [<-|[]]; left; reflexivity|exact M4]].
    split; [exact M4|]. intros r' fs5 He5.
    assert (M5 : made fs5) by (eapply made_tmp; [exact He5|intros q [= <-]; apply in_tout, Et|exact M4]).
    apply Bd; [|exact M5]. rewrite Etm. intros x [<-|[<-|[]]]; [right; left|left]; reflexivity.
  - apply Bd; [|exact M3]. intros x [<-|[]]. left. reflexivity.
Qed.

(** *** Failure *)
Definition failed_only (c : cmd) : Prop := match c with Done Success => False | _ => True end.
Lemma main_fail strict : ~ parses -> always strict (fun c fs => same tmps fs fs0 /\ failed_only c) (main i o t fl gofmt partial pieces) fs0.
Proof.
  intros Np. set (P := fun (c : cmd) fs => same tmps fs fs0 /\ failed_only c).
  assert (S0 : same tmps fs0 fs0) by apply same_refl.
  assert (Df : forall l fs, incl l tmps -> same tmps fs fs0 -> always strict P (defers l Panicked) fs).
  { intros l. induction l as [|p l IH]; intros fs Il S; cbn; (split; [split; [exact S|exact I]|]); [exact I|].
    intros r fs' He. apply IH; [intros x X; apply Il; right; exact X|]. eapply eff_same; [exact He| |exact S]. intros q [= <-]. apply Il. left. reflexivity. }
  assert (W : forall ws l fs, incl l tmps -> same tmps fs fs0 -> always strict P (writes o t ws (defers l Panicked)) fs).
  { intros ws l. induction ws as [|[s|s] ws IH]; intros fs Il S; cbn [writes]; [apply Df; assumption| |]; (split; [split; [exact S|exact I]|]); intros r fs' He.
    - apply IH; [exact Il|]. eapply eff_same; [exact He| |exact S]. intros q [= <-]. left. reflexivity.
    - apply IH; [exact Il|]. eapply eff_same; [exact He| |exact S]. intros q [= <-]. apply in_dest. }
  assert (I1 : incl [outTmp o] tmps) by (intros x [<-|[]]; left; reflexivity).
  assert (I2 : with_types t = true -> incl [toutTmp t; outTmp o] tmps) by (intros W0 x [<-|[<-|[]]]; [apply in_tout, W0|apply in_out]).
  unfold main. destruct (String.eqb i ""); [split; [split; [exact S0|exact I]|exact I]|]. destruct (String.eqb o ""); [split; [split; [exact S0|exact I]|exact I]|].
  split; [split; [exact S0|exact I]|]. intros r fs' He.
  assert (S1 : same tmps fs' fs0) by (eapply eff_same; [exact He|discriminate|exact S0]).
  destruct r as [src|]; [|split; [split; [exact S1|exact I]|exact I]].
  assert (Hi : fs0 i = Some src) by (inversion He; subst; assumption).
  assert (Bd : forall l fs k, incl l tmps -> same tmps fs fs0 -> always strict P (xdrParse o t fl partial pieces src (defers l Panicked) k) fs).
  { intros l fs k Il S. unfold xdrParse. destruct (front src) as [ds|] eqn:Ef; [|apply W; assumption].
    destruct (emit_list (emit fl) ds) as [ws|] eqn:Ee; [|apply W; assumption]. exfalso. apply Np. exists src, ds, ws. auto. }
  split; [split; [exact S1|exact I]|]. intros r fs2 He2.
  assert (S2 : same tmps fs2 fs0) by (eapply eff_same; [exact He2|intros q [= <-]; left; reflexivity|exact S1]).
  destruct r as [u|]; [|split; [split; [exact S2|exact I]|exact I]].
  split; [split; [exact S2|exact I]|]. intros rh fsh Heh.
  assert (Sh : same tmps fsh fs0) by (eapply eff_same; [exact Heh|intros q [= <-]; left; reflexivity|exact S2]).
  split; [split; [exact Sh|exact I]|]. intros r fs3 He3.
  assert (S3 : same tmps fs3 fs0) by (eapply eff_same; [exact He3|intros q [= <-]; left; reflexivity|exact Sh]).
  cbv zeta. destruct (with_types t) eqn:Et; [|apply Bd; assumption].
  split; [split; [exact S3|exact I]|]. intros r' fs4 He4.
  assert (S4 : same tmps fs4 fs0) by (eapply eff_same; [exact He4|intros q [= <-]; apply in_tout, Et|exact S3]).
  destruct r' as [u'|]; [|apply Df; assumption].
  split; [split; [exact S4|exact I]|]. intros r' fs5 He5.
  assert (S5 : same tmps fs5 fs0) by (eapply eff_same; [exact He5|intros q [= <-]; apply in_tout, Et|exact S4]).
  apply Bd; auto.
Qed.
End Run.

(** ** Runs without I/O errors *)
Definition final (strict : bool) (Q : status -> fsys -> Prop) (c : cmd) (fs : fsys) : Prop :=
  always strict (fun c fs => match c with Done st => Q st fs | Do _ _ => True end) c fs.
Lemma final_done strict (Q : status -> fsys -> Prop) st fs : Q st fs -> final strict Q (Done st) fs.
Proof. intros H. split; [exact H|exact I]. Qed.
Lemma final_do strict Q a k fs : (forall r fs', eff strict fs a r fs' -> final strict Q (k r) fs') -> final strict Q (Do a k) fs.
Proof. intros H. split; [exact I|exact H]. Qed.
Lemma final_read Q p k fs c : fs p = Some c -> final true Q (k (ROk c)) fs -> final true Q (Do (ARead p) k) fs.
Proof. intros H F. apply final_do. intros r fs' He. inversion He; subst; congruence. Qed.
Lemma final_create Q p k fs : fs p = None -> final true Q (k (ROk "")) (fset fs p (Some "")) -> final true Q (Do (ACreate p) k) fs.
Proof. intros H F. apply final_do. intros r fs' He. inversion He; subst; congruence. Qed.
Lemma final_append Q p s k fs c : fs p = Some c -> final true Q (k (ROk "")) (fset fs p (Some (c +++ s))) -> final true Q (Do (AAppend p s) k) fs.
Proof. intros H F. apply final_do. intros r fs' He. inversion He; subst; congruence. Qed.
Lemma final_trunc Q p k fs : final true Q (k (ROk "")) (fset fs p (Some "")) -> final true Q (Do (ATrunc p) k) fs.
Proof. intros F. apply final_do. intros r fs' He. inversion He; subst; congruence. Qed.
Lemma final_remove Q p k fs : final true Q (k (ROk "")) (fset fs p None) -> final true Q (Do (ARemove p) k) fs.
Proof. intros F. apply final_do. intros r fs' He. inversion He; subst; congruence. Qed.
Lemma final_defers (Q : status -> fsys -> Prop) st l : forall fs, (forall fs', (forall p, fs' p = if mem p l then None else fs p) -> Q st fs') -> final true Q (defers l st) fs.
Proof.
  induction l as [|p l IH]; intros fs H; cbn [defers]; [apply final_done, H; reflexivity|]. apply final_remove, IH. intros fs' E. apply H.
  intros q. rewrite E. unfold fset. cbn. destruct (String.eqb q p) eqn:Eq; cbn; [|reflexivity]. destruct (mem q l); reflexivity.
Qed.
Lemma sassoc a b c : (a +++ b) +++ c = a +++ b +++ c. Proof. induction a; cbn; [reflexivity|]. rewrite IHa. reflexivity. Qed.
Lemma snil a : a +++ "" = a. Proof. induction a; cbn; [reflexivity|]. rewrite IHa. reflexivity. Qed.
(** Everything that is written reaches the temporary files, in order. *)
Lemma final_writes Q o t ws k : forall fs a b, fs (outTmp o) = Some a -> (with_types t = true -> fs (toutTmp t) = Some b /\ toutTmp t <> outTmp o) ->
  (forall fs', same (tmps o t) fs' fs -> fs' (outTmp o) = Some (a +++ out_text (with_types t) ws) ->
     (with_types t = true -> fs' (toutTmp t) = Some (b +++ tout_text ws)) -> final true Q k fs') ->
  final true Q (writes o t ws k) fs.
Proof.
  induction ws as [|[s|s] ws IH]; intros fs a b Ho Ht Hk; cbn [writes].
  - apply Hk; [apply same_refl|cbn; rewrite snil; exact Ho|]. intros W. cbn. rewrite snil. apply Ht, W.
  - eapply final_append; [exact Ho|]. eapply IH; [apply fset_same| |].
    + intros W. destruct (Ht W) as [E N]. rewrite fset_other by exact N. split; [exact E|exact N].
    + intros fs' S E1 E2. apply Hk; [|cbn [out_text]; rewrite <- sassoc; exact E1|exact E2].
      intros p Np. rewrite S by exact Np. apply fset_other. intros ->. apply Np, in_out.
  - destruct (with_types t) eqn:W.
    + destruct (Ht eq_refl) as [E N]. eapply final_append; [exact E|]. eapply (IH _ a (b +++ s)); [rewrite fset_other by congruence; exact Ho| |].
      * intros _. rewrite fset_same. auto.
      * intros fs' S E1 E2. apply Hk; [|exact E1|intros _; cbn [tout_text]; rewrite <- sassoc; apply E2; reflexivity].
        intros p Np. rewrite S by exact Np. apply fset_other. intros ->. apply Np, in_tout, W.
    + eapply final_append; [exact Ho|]. eapply (IH _ (a +++ s) b); [apply fset_same|discriminate|].
      intros fs' S E1 _. apply Hk; [|cbn [out_text]; rewrite <- sassoc; exact E1|discriminate].
      intros p Np. rewrite S by exact Np. apply fset_other. intros ->. apply Np, in_out.
Qed.
Lemma final_refmt Q gofmt inf outf fail k fs txt : fs inf = Some txt ->
  (gofmt txt = None -> final true Q fail fs) ->
  (forall f, gofmt txt = Some f -> forall fs', (forall p, fs' p = if String.eqb p outf then Some f else fs p) -> final true Q k fs') ->
  final true Q (refmt gofmt inf outf fail k) fs.
Proof.
  intros Hi Hf Hk. unfold refmt. eapply final_read; [exact Hi|]. destruct (gofmt txt) as [f|]; [|apply Hf; reflexivity].
  apply final_trunc. cbn. eapply final_append; [apply fset_same|]. eapply Hk; [reflexivity|]. intros p. unfold fset.
  destruct (String.eqb p outf); reflexivity.
Qed.

(** A command always comes to an end. *)
Lemma ends c : forall fs, exists st fs', reach true (c, fs) (Done st, fs').
Proof.
  induction c as [st|a k IH]; intros fs; [exists st, fs; constructor|].
  assert (E : exists r fs', eff true fs a r fs').
  { destruct a as [p|p|p s|p|p].
    - destruct (fs p) eqn:E; eexists _, _; [eapply e_read; exact E|apply e_read_none; exact E].
    - destruct (fs p) eqn:E; eexists _, _; [eapply e_create_exists; exact E|apply e_create; exact E].
    - destruct (fs p) eqn:E; eexists _, _; [eapply e_append; exact E|apply e_append_gone; exact E].
    - eexists _, _. apply e_trunc.
    - eexists _, _. apply e_remove. }
  destruct E as (r & fs' & E). destruct (IH r fs') as (st & fs2 & R). exists st, fs2. econstructor; eassumption.
Qed.

Lemma slen a b : String.length (a +++ b) = (String.length a + String.length b)%nat.
Proof. induction a; cbn; [reflexivity|]. rewrite IHa. reflexivity. Qed.
Lemma tmp_inj a b : a +++ ".tmp" = b +++ ".tmp" -> a = b.
Proof.
  revert b. induction a as [|c a IH]; intros [|d b] X; [reflexivity| | |].
  - apply (f_equal String.length) in X. rewrite !slen in X. cbn in X. lia.
  - apply (f_equal String.length) in X. rewrite !slen in X. cbn in X. lia.
  - cbn [String.append] in X. injection X as -> X. f_equal. apply IH, X.
Qed.

Lemma mem_tmps o t p : mem p (if with_types t then [toutTmp t; outTmp o] else [outTmp o]) = true <-> In p (tmps o t).
Proof.
  unfold mem, tmps. rewrite existsb_exists. split.
  - intros (x & I & E). apply String.eqb_eq in E. subst x. destruct (with_types t); cbn in *; tauto.
  - intros I. exists p. split; [|apply String.eqb_refl]. destruct (with_types t); cbn in *; tauto.
Qed.

Section Strict.
Variables (i o t : string) (fl : flags) (gofmt : string -> option string) (partial pieces : string -> list write).
Variable fs0 : fsys.
Hypothesis Hi : i <> "".
Hypothesis Ho : o <> "".
Hypothesis Hfl : fl_types fl = with_types t.
Hypothesis Hcut : cut_up fl pieces.

Lemma header_text : ("" +++ tout_header fl) +++ import_line = out_header fl.
Proof. unfold tout_header, import_line, out_header. cbn [String.append]. do 5 f_equal. cbn. rewrite !sassoc. reflexivity. Qed.
(** What happens up to the call of xdrParse. *)
Lemma main_start Q src : fs0 i = Some src -> fs0 (outTmp o) = None -> (with_types t = true -> fs0 (toutTmp t) = None /\ toutTmp t <> outTmp o) ->
  let ds := if with_types t then [toutTmp t; outTmp o] else [outTmp o] in
  (forall fs, same (tmps o t) fs fs0 -> fs (outTmp o) = Some (out_header fl) -> (with_types t = true -> fs (toutTmp t) = Some (tout_header fl)) ->
     final true Q (xdrParse o t fl partial pieces src (defers ds Panicked)
          (refmt gofmt (outTmp o) o (defers ds Panicked)
             (if with_types t then refmt gofmt (toutTmp t) t (defers ds Panicked) (defers ds Success) else defers ds Success))) fs) ->
  final true Q (main i o t fl gofmt partial pieces) fs0.
Proof.
  intros Es No Nt ds H. unfold main. apply String.eqb_neq in Hi, Ho. rewrite Hi, Ho.
  eapply final_read; [exact Es|]. apply final_create; [exact No|]. eapply final_append; [apply fset_same|]. eapply final_append; [apply fset_same|]. cbv zeta.
  destruct (with_types t) eqn:W.
  - destruct (Nt eq_refl) as [N1 N2]. apply final_create; [rewrite !fset_other by exact N2; exact N1|].
    eapply final_append; [apply fset_same|]. apply H.
    + intros p Np. rewrite !fset_other; try reflexivity; intros ->; apply Np; [apply in_out|apply in_out|apply in_out|apply in_tout, W|apply in_tout, W].
    + rewrite !fset_other by congruence. rewrite fset_same. f_equal. apply header_text.
    + intros _. apply fset_same.
  - apply H; [|rewrite fset_same; f_equal; apply header_text|discriminate]. intros p Np. rewrite !fset_other; try reflexivity; intros ->; apply Np, in_out.
Qed.
(** Removing the temporary files restores the files as they were. *)
Lemma restored fs fs' : fs0 (outTmp o) = None -> (with_types t = true -> fs0 (toutTmp t) = None) -> same (tmps o t) fs fs0 ->
  (forall p, fs' p = if mem p (if with_types t then [toutTmp t; outTmp o] else [outTmp o]) then None else fs p) -> forall p, fs' p = fs0 p.
Proof.
  intros No Nt S E p. rewrite E. destruct (mem p _) eqn:M.
  - apply mem_tmps in M. destruct M as [<-|M]; [symmetry; exact No|]. destruct (with_types t); [|destruct M]. destruct M as [<-|[]]. symmetry. apply Nt. reflexivity.
  - apply S. intros X. apply mem_tmps in X. congruence.
Qed.

(** The run on a specification that cannot be generated: nothing is left changed. *)
Lemma fail_restores src : fs0 i = Some src -> generate fl src = None ->
  final true (fun st fs => st <> Success /\ forall p, fs p = fs0 p) (main i o t fl gofmt partial pieces) fs0.
Proof.
  intros Es G. destruct (fs0 (outTmp o)) eqn:Eo.
  { unfold main. apply String.eqb_neq in Hi, Ho. rewrite Hi, Ho. eapply final_read; [exact Es|]. apply final_do. intros r fs' He. inversion He; subst; try congruence.
    apply final_done. split; [discriminate|reflexivity]. }
  destruct (with_types t && match fs0 (toutTmp t) with Some _ => true | None => String.eqb (toutTmp t) (outTmp o) end) eqn:C.
  { apply andb_true_iff in C. destruct C as [W C]. unfold main. apply String.eqb_neq in Hi, Ho. rewrite Hi, Ho. eapply final_read; [exact Es|].
    apply final_create; [exact Eo|]. eapply final_append; [apply fset_same|]. eapply final_append; [apply fset_same|]. cbv zeta. rewrite W. apply final_do. intros r fs' He.
    assert (X : fset (fset (fset fs0 (outTmp o) (Some "")) (outTmp o) (Some ("" +++ tout_header fl))) (outTmp o) (Some (("" +++ tout_header fl) +++ import_line)) (toutTmp t) <> None).
    { destruct (String.eqb_spec (toutTmp t) (outTmp o)) as [->|N]; [rewrite fset_same; discriminate|]. rewrite !fset_other by exact N. destruct (fs0 (toutTmp t)); discriminate. }
    inversion He; subst; try congruence. apply final_defers. intros fs' E. split; [discriminate|]. intros p. rewrite E. cbn. unfold fset.
    destruct (String.eqb_spec p (outTmp o)) as [->|N]; cbn; [symmetry; exact Eo|reflexivity]. }
  assert (Nt : with_types t = true -> fs0 (toutTmp t) = None /\ toutTmp t <> outTmp o).
  { intros W. rewrite W in C. cbn in C. destruct (fs0 (toutTmp t)); [discriminate|]. split; [reflexivity|]. apply String.eqb_neq, C. }
  eapply main_start; [exact Es|exact Eo|exact Nt|]. intros fs S Ea Eb.
  assert (F : forall k, xdrParse o t fl partial pieces src (defers (if with_types t then [toutTmp t; outTmp o] else [outTmp o]) Panicked) k =
    writes o t (partial src) (defers (if with_types t then [toutTmp t; outTmp o] else [outTmp o]) Panicked)).
  { intros k. unfold xdrParse. unfold generate in G. destruct (front src); [|reflexivity]. cbn [pbind] in G. destruct (emit_list (emit fl) l); [discriminate|reflexivity]. }
  rewrite F. eapply final_writes; [exact Ea|intros W; split; [apply Eb, W|apply Nt, W]|]. intros fs' S' _ _.
  apply final_defers. intros fs2 E2. split; [discriminate|]. eapply restored; [exact Eo|intros W; apply Nt, W| |exact E2].
  intros p Np. rewrite S' by exact Np. apply S, Np.
Qed.

(** The run on a specification that can be generated. *)
Lemma generated src out ty : fs0 i = Some src -> generate fl src = Some (out, ty) ->
  fs0 (outTmp o) = None -> (with_types t = true -> fs0 (toutTmp t) = None /\ t <> o /\ t <> outTmp o /\ toutTmp t <> o) ->
  final true (fun st fs =>
    match gofmt out with
    | None => st = Panicked /\ forall p, fs p = fs0 p
    | Some f =>
        match ty with
        | None => st = Success /\ forall p, fs p = if String.eqb p o then Some f else fs0 p
        | Some types =>
            match gofmt types with
            | None => st = Panicked /\ forall p, fs p = if String.eqb p o then Some f else fs0 p
            | Some g => st = Success /\ forall p, fs p = if String.eqb p t then Some g else if String.eqb p o then Some f else fs0 p
            end
        end
    end) (main i o t fl gofmt partial pieces) fs0.
Proof.
  intros Es G Eo Et. unfold generate in G. destruct (front src) as [ds|] eqn:Ef; [|discriminate]. cbn [pbind] in G.
  destruct (emit_list (emit fl) ds) as [ws|] eqn:Ee; [|discriminate]. cbn [pbind] in G. 
  destruct (Hcut _ _ _ Ef Ee) as [C1 C2]. rewrite <- C1, <- C2 in G.
  assert (Eout : out_header fl +++ out_text (fl_types fl) (pieces src) = out) by congruence.
  assert (Ety : (if fl_types fl then Some (tout_header fl +++ tout_text (pieces src)) else None) = ty) by congruence. clear G. rewrite Hfl in Eout, Ety.
  assert (Nt : with_types t = true -> fs0 (toutTmp t) = None /\ toutTmp t <> outTmp o).
  { intros W. destruct (Et W) as (A & B & _). split; [exact A|]. intros X. apply B. apply (tmp_inj t o), X. }
  eapply main_start; [exact Es|exact Eo|exact Nt|]. intros fs S Ea Eb. unfold xdrParse. rewrite Ef, Ee.
  eapply final_writes; [exact Ea|intros W; split; [apply Eb, W|apply Nt, W]|]. intros fs1 S1 E1 E1t. rewrite Eout in E1.
  assert (S1' : same (tmps o t) fs1 fs0) by (intros p Np; rewrite S1 by exact Np; apply S, Np).
  assert (No : ~ In o (tmps o t)).
  { intros [X|X]; [exact (tmp_ne o X)|]. destruct (with_types t) eqn:W; [|destruct X]. destruct X as [X|[]]. destruct (Et eq_refl) as (_ & _ & _ & X'). congruence. }
  eapply final_refmt; [exact E1| |].
  - intros Eg. rewrite Eg. apply final_defers. intros fs2 E2. split; [reflexivity|]. eapply restored; [exact Eo|intros W; apply Nt, W|exact S1'|exact E2].
  - intros f Eg fs2 E2. rewrite Eg.
    assert (D : forall fs3 fs', (forall p, ~ In p (tmps o t) -> fs3 p = fs2 p) ->
      (forall p, fs' p = if mem p (if with_types t then [toutTmp t; outTmp o] else [outTmp o]) then None else fs3 p) ->
      forall p, fs' p = if String.eqb p o then Some f else fs0 p).
    { intros fs3 fs' S3 E3 p. rewrite E3. destruct (mem p _) eqn:M.
      - apply mem_tmps in M. destruct (String.eqb_spec p o) as [->|_]; [contradiction|].
        destruct M as [<-|M]; [symmetry; exact Eo|]. destruct (with_types t); [|destruct M]. destruct M as [<-|[]]. symmetry. apply Nt. reflexivity.
      - assert (Np : ~ In p (tmps o t)) by (intros X; apply mem_tmps in X; congruence). rewrite S3, E2 by exact Np.
        destruct (String.eqb p o); [reflexivity|]. apply S1', Np. }
    destruct (with_types t) eqn:W.
    + destruct (Et eq_refl) as (_ & N1 & N2 & N3).
      assert (E2t : fs2 (toutTmp t) = Some (tout_header fl +++ tout_text (pieces src))).
      { rewrite E2. apply String.eqb_neq in N3. rewrite N3. apply E1t. reflexivity. }
      subst ty. eapply final_refmt; [exact E2t| |].
      * intros Eg2. rewrite Eg2. apply final_defers. intros fs3 E3. split; [reflexivity|]. apply (D fs2); [reflexivity|exact E3].
      * intros g Eg2 fs3 E3. rewrite Eg2. apply final_defers. intros fs4 E4. split; [reflexivity|].
        set (fs3' := fun p => if String.eqb p t then fs2 p else fs3 p).
        assert (Nt' : ~ In t (tmps o t)).
        { intros [X|X]; [congruence|]. rewrite W in X. destruct X as [X|[]]. exact (tmp_ne t X). }
        intros p. destruct (String.eqb_spec p t) as [->|N].
        -- rewrite E4. destruct (mem t _) eqn:M; [|rewrite E3, String.eqb_refl; reflexivity].
           exfalso. apply Nt', mem_tmps. rewrite W. exact M.
        -- set (fs4' := fun q => if mem q [toutTmp t; outTmp o] then None else fs2 q).
           transitivity (fs4' p); [|apply (D fs2); [reflexivity|intros q; reflexivity]].
           rewrite E4. unfold fs4'. destruct (mem p _); [reflexivity|]. rewrite E3. apply String.eqb_neq in N. rewrite N. reflexivity.
    + subst ty. apply final_defers. intros fs3 E3. split; [reflexivity|]. apply (D fs2); [reflexivity|exact E3].
Qed.
End Strict.

(** A temporary file left behind makes every later run fail before it touches anything. *)
Lemma stale_out strict i o t fl gofmt partial pieces fs0 c : fs0 (outTmp o) = Some c ->
  always strict (fun c fs => fs = fs0 /\ failed_only c) (main i o t fl gofmt partial pieces) fs0.
Proof.
  intros H. unfold main. destruct (String.eqb i ""); [repeat split|]. destruct (String.eqb o ""); [repeat split|].
  split; [repeat split|]. intros r fs' He. assert (fs' = fs0) by (inversion He; reflexivity). subst fs'.
  destruct r; [|repeat split]. split; [repeat split|]. intros r fs' He2. inversion He2; subst; try congruence; repeat split.
Qed.
Lemma stale_types strict i o t fl gofmt partial pieces fs0 c : with_types t = true -> fs0 (toutTmp t) = Some c ->
  always strict (fun c fs => same [outTmp o] fs fs0 /\ failed_only c) (main i o t fl gofmt partial pieces) fs0.
Proof.
  intros W H. assert (S0 : same [outTmp o] fs0 fs0) by apply same_refl. assert (In0 : In (outTmp o) [outTmp o]) by (left; reflexivity).
  unfold main. destruct (String.eqb i ""); [split; [split; [exact S0|exact I]|exact I]|]. destruct (String.eqb o ""); [split; [split; [exact S0|exact I]|exact I]|].
  split; [split; [exact S0|exact I]|]. intros r fs' He.
  assert (fs' = fs0) by (inversion He; reflexivity). subst fs'.
  destruct r as [src|]; [|split; [split; [exact S0|exact I]|exact I]].
  split; [split; [exact S0|exact I]|]. intros r fs2 He2.
  assert (S2 : same [outTmp o] fs2 fs0) by (eapply eff_same; [exact He2|intros q [= <-]; exact In0|exact S0]).
  assert (T2 : exists c, fs2 (toutTmp t) = Some c).
  { inversion He2; subst; eauto. unfold fset. destruct (String.eqb (toutTmp t) (outTmp o)); eauto. }
  destruct r as [u|]; [|split; [split; [exact S2|exact I]|exact I]].
  split; [split; [exact S2|exact I]|]. intros rh fsh Heh.
  assert (Sh : same [outTmp o] fsh fs0) by (eapply eff_same; [exact Heh|intros q [= <-]; exact In0|exact S2]).
  assert (Th : exists c, fsh (toutTmp t) = Some c).
  { destruct T2 as [c2 T2]. inversion Heh; subst; eauto; unfold fset; destruct (String.eqb (toutTmp t) (outTmp o)); eauto. }
  split; [split; [exact Sh|exact I]|]. intros r fs3 He3.
  assert (S3 : same [outTmp o] fs3 fs0) by (eapply eff_same; [exact He3|intros q [= <-]; exact In0|exact Sh]).
  assert (T3 : exists c, fs3 (toutTmp t) = Some c).
  { destruct Th as [c2 Th]. inversion He3; subst; eauto; unfold fset; destruct (String.eqb (toutTmp t) (outTmp o)); eauto. }
  cbv zeta. rewrite W. split; [split; [exact S3|exact I]|]. intros r' fs4 He4. destruct T3 as [c3 T3].
  assert (r' = RErr /\ fs4 = fs3) as [-> ->] by (inversion He4; subst; try congruence; auto).
  split; [split; [exact S3|exact I]|]. intros r' fs5 He5. split; [|exact I]. split; [|exact I].
  eapply eff_same; [exact He5|intros q [= <-]; exact In0|exact S3].
Qed.
