(** White space in specifications: runs of blanks are interchangeable, and a newline is a
    blank plus a semicolon exactly after a token that ends a line. *)
From Verif Require Import GoLex XLex Gram GParse GParseP.
Open Scope string_scope.
Open Scope list_scope.

Notation "a +++ b" := (String.append a b) (at level 60, right associativity).

Fixpoint blanks (s : string) : bool := match s with EmptyString => true | String c r => is_blank c && blanks r end.

(** Same text up to the contents of non-empty blank runs. *)
Inductive wsim : string -> string -> Prop :=
| ws_nil : wsim "" ""
| ws_char c s t : wsim s t -> wsim (String c s) (String c t)
| ws_run a b s t : blanks a = true -> blanks b = true -> a <> "" -> b <> "" -> wsim s t -> wsim (a +++ s) (b +++ t).

Lemma wsim_refl s : wsim s s.
Proof. induction s; constructor; assumption. Qed.
Lemma wsim_app p s t : wsim s t -> wsim (p +++ s) (p +++ t).
Proof. intros H. induction p; cbn; [exact H|constructor; assumption]. Qed.

Definition nonblank (p : ascii -> bool) : Prop := forall c, is_blank c = true -> p c = false.

Lemma blank_cases c : is_blank c = true -> c = " "%char \/ c = tab \/ c = cr.
Proof.
  unfold is_blank. rewrite !orb_true_iff, !Ascii.eqb_eq. tauto.
Qed.
Ltac nb := intros ? ?Hb; apply blank_cases in Hb; destruct Hb as [->|[->| ->]]; reflexivity.
Lemma nb_idchar : nonblank is_idchar. Proof. nb. Qed.
Lemma nb_digit : nonblank is_digit. Proof. nb. Qed.
Lemma nb_dec : nonblank is_dec_sep. Proof. nb. Qed.
Lemma nb_hex : nonblank is_hex_sep. Proof. nb. Qed.
Lemma nb_chr a : is_blank a = false -> nonblank (chr a).
Proof. intros Ha c Hc. unfold chr. destruct (Ascii.eqb_spec c a); congruence. Qed.

Lemma wsim_inv_nil t : wsim "" t -> t = "".
Proof. intros H. inversion H as [| |a b s t' Ha Hb Na Nb Hs Ea]; [reflexivity|]. destruct a; [congruence|discriminate]. Qed.
(** The heads are equal, or both are blanks. *)
Lemma wsim_head c s t : wsim (String c s) t ->
  (is_blank c = true /\ exists d t', t = String d t' /\ is_blank d = true) \/ (exists t', t = String c t' /\ wsim s t').
Proof.
  intros H. inversion H as [|c' s' t' Hs|a b s' t' Ha Hb Na Nb Hs Ea].
  - right. eauto.
  - left. destruct a as [|c' a]; [congruence|]. destruct b as [|d b]; [congruence|]. injection Ea as -> _. cbn in Ha, Hb.
    apply andb_true_iff in Ha, Hb. split; [tauto|]. exists d, (b +++ t'). split; [reflexivity|tauto].
Qed.

Lemma head_wsim p s t : nonblank p -> wsim s t -> head_is p s = head_is p t.
Proof.
  intros Hp H. destruct s as [|c s]; [apply wsim_inv_nil in H; subst; reflexivity|].
  apply wsim_head in H. destruct H as [(B & d & t' & -> & Bd)|(t' & -> & _)]; [|reflexivity]. cbn. rewrite !Hp by assumption. reflexivity.
Qed.
Lemma span_wsim p s : nonblank p -> forall t, wsim s t ->
  fst (span p s) = fst (span p t) /\ wsim (snd (span p s)) (snd (span p t)).
Proof.
  intros Hp. induction s as [|c s IH]; intros t H; [apply wsim_inv_nil in H; subst; split; [reflexivity|constructor]|].
  pose proof H as H0. apply wsim_head in H. destruct H as [(B & d & t' & -> & Bd)|(t' & -> & Hs)].
  - cbn. rewrite !Hp by assumption. split; [reflexivity|exact H0].
  - cbn. destruct (p c); [|split; [reflexivity|exact H0]]. specialize (IH _ Hs).
    destruct (span p s), (span p t'). cbn in *. destruct IH as [-> IH]. split; [reflexivity|exact IH].
Qed.
Lemma span_length p s : (String.length (snd (span p s)) <= String.length s)%nat.
Proof. induction s as [|c s IH]; cbn; [lia|]. destruct (p c); [|cbn; lia]. destruct (span p s). cbn in *. lia. Qed.
(** A scanning function that does not look at blanks. *)
Definition sim_fun (f : string -> string * string) : Prop :=
  (forall s t, wsim s t -> fst (f s) = fst (f t) /\ wsim (snd (f s)) (snd (f t))) /\
  (forall s, String.length (snd (f s)) <= String.length s)%nat.
Lemma sim_span p : nonblank p -> sim_fun (span p).
Proof. intros H. split; [intros s t; apply span_wsim; exact H|intros; apply span_length]. Qed.
(** take1 is only used on a character known not to be blank. *)
Lemma take1_wsim p s t : nonblank p -> head_is p s = true -> wsim s t ->
  fst (take1 s) = fst (take1 t) /\ wsim (snd (take1 s)) (snd (take1 t)).
Proof.
  intros Hp Hh H. destruct s as [|c s]; [discriminate|]. cbn in Hh. apply wsim_head in H.
  destruct H as [(B & _)|(t' & -> & Hs)]; [rewrite Hp in Hh by exact B; discriminate|]. cbn. split; [reflexivity|exact Hs].
Qed.
Lemma take1_length s : (String.length (snd (take1 s)) <= String.length s)%nat.
Proof. destruct s; cbn; lia. Qed.

(** ** Numbers *)
Lemma int_part_wsim s t : wsim s t ->
  fst (fst (int_part s)) = fst (fst (int_part t)) /\ wsim (snd (fst (int_part s))) (snd (fst (int_part t))) /\
  snd (int_part s) = snd (int_part t) /\ nonblank (snd (int_part s)).
Proof.
  intros H.
  assert (D : forall s t, wsim s t -> (forall r, s <> String "0" r) -> (forall r, t <> String "0" r) ->
    let f s := let '(d, r) := span is_dec_sep s in (d, r, is_dec_sep) in
    fst (fst (f s)) = fst (fst (f t)) /\ wsim (snd (fst (f s))) (snd (fst (f t))) /\ snd (f s) = snd (f t) /\ nonblank (snd (f s))).
  { clear. intros s t H _ _ f. unfold f. destruct (span_wsim is_dec_sep s nb_dec t H) as [A B].
    destruct (span is_dec_sep s), (span is_dec_sep t). cbn in *. repeat split; try assumption. exact nb_dec. }
  destruct s as [|c s]; [apply wsim_inv_nil in H; subst; apply (D "" "" ws_nil); discriminate|].
  destruct (Ascii.eqb_spec c "0") as [->|Nc].
  - apply wsim_head in H. destruct H as [(B & _)|(t' & -> & Hs)]; [discriminate|]. cbn [int_part].
    rewrite <- (head_wsim (fun c => lchr "x" c) s t' ltac:(nb) Hs).
    destruct (head_is (fun c => lchr "x" c) s) eqn:Ex.
    { destruct (take1_wsim (fun c => lchr "x" c) s t' ltac:(nb) Ex Hs) as [A B]. destruct (take1 s) as [x r], (take1 t') as [x' r']. cbn in A, B. subst x'.
      destruct (span_wsim is_hex_sep r nb_hex r' B) as [A' B']. destruct (span is_hex_sep r), (span is_hex_sep r'). cbn in *.
      subst. repeat split; try assumption. exact nb_hex. }
    rewrite <- (head_wsim (fun c => lchr "o" c || lchr "b" c) s t' ltac:(nb) Hs).
    destruct (head_is (fun c => lchr "o" c || lchr "b" c) s) eqn:Eo.
    { destruct (take1_wsim (fun c => lchr "o" c || lchr "b" c) s t' ltac:(nb) Eo Hs) as [A B]. destruct (take1 s) as [x r], (take1 t') as [x' r']. cbn in A, B. subst x'.
      destruct (span_wsim is_dec_sep r nb_dec r' B) as [A' B']. destruct (span is_dec_sep r), (span is_dec_sep r'). cbn in *.
      subst. repeat split; try assumption. exact nb_dec. }
    destruct (span_wsim is_dec_sep s nb_dec t' Hs) as [A B]. destruct (span is_dec_sep s), (span is_dec_sep t'). cbn in *.
    subst. repeat split; try assumption. exact nb_dec.
  - assert (F : forall c s, c <> "0"%char -> int_part (String c s) = let '(d, r) := span is_dec_sep (String c s) in (d, r, is_dec_sep)).
    { clear. intros c s N. destruct c as [b0 b1 b2 b3 b4 b5 b6 b7]. destruct b0, b1, b2, b3, b4, b5, b6, b7; try reflexivity. congruence. }
    pose proof H as H0. apply wsim_head in H. destruct H as [(B & d & t' & -> & Bd)|(t' & -> & Hs)].
    + rewrite !F; [|intros ->; discriminate|exact Nc]. apply (D _ _ H0); intros r [= ? ?]; subst; discriminate.
    + rewrite !F by exact Nc. apply (D _ _ H0); intros r [= ? ?]; congruence.
Qed.
(** An optional part whose scanner respects [wsim] where it is used. *)
Lemma opt_part_wsim p f s t : nonblank p ->
  (head_is p s = true -> fst (f s) = fst (f t) /\ wsim (snd (f s)) (snd (f t))) -> wsim s t ->
  fst (fst (opt_part p f s)) = fst (fst (opt_part p f t)) /\ snd (fst (opt_part p f s)) = snd (fst (opt_part p f t)) /\
  wsim (snd (opt_part p f s)) (snd (opt_part p f t)).
Proof.
  intros Hp Hf H. unfold opt_part. rewrite <- (head_wsim p s t Hp H). destruct (head_is p s); [|repeat split; assumption].
  destruct (Hf eq_refl) as [A B]. destruct (f s), (f t). cbn in *. repeat split; assumption.
Qed.
Lemma opt_part_length p f s : (String.length (snd (f s)) <= String.length s)%nat -> (String.length (snd (opt_part p f s)) <= String.length s)%nat.
Proof. intros H. unfold opt_part. destruct (head_is p s); [|cbn; lia]. destruct (f s). exact H. Qed.

Definition frac_part (digs : ascii -> bool) (s : string) : string * string :=
  let '(x, r) := take1 s in let '(d, r) := span digs r in ((x +++ d)%string, r).
Definition exp_part (s : string) : string * string :=
  let '(x, r) := take1 s in
  let '(_, y, r) := opt_part (fun c => chr "+" c || chr "-" c) take1 r in
  let '(d, r) := span is_dec_sep r in ((x +++ y +++ d)%string, r).
Lemma scan_number_eq s : scan_number s =
  let '(a, r, digs) := int_part s in
  let '(dot, b, r) := opt_part (chr ".") (frac_part digs) r in
  let '(ex, c, r) := opt_part (fun c => lchr "e" c || lchr "p" c) exp_part r in
  let '(im, e, r) := opt_part (chr "i") take1 r in
  let lit := (a +++ b +++ c +++ e)%string in
  (if im then GImag lit else if dot || ex then GFloat lit else GInt lit, r).
Proof. reflexivity. Qed.
Lemma frac_wsim digs s t : nonblank digs -> head_is (chr ".") s = true -> wsim s t ->
  fst (frac_part digs s) = fst (frac_part digs t) /\ wsim (snd (frac_part digs s)) (snd (frac_part digs t)).
Proof.
  intros Hd Hh H. destruct (take1_wsim (chr ".") s t ltac:(nb) Hh H) as [A B]. unfold frac_part. destruct (take1 s) as [x r], (take1 t) as [x' r']. cbn in A, B.
  destruct (span_wsim digs r Hd r' B) as [A' B']. destruct (span digs r), (span digs r'). cbn in *. subst. split; [reflexivity|assumption].
Qed.
Lemma exp_wsim s t : head_is (fun c => lchr "e" c || lchr "p" c) s = true -> wsim s t ->
  fst (exp_part s) = fst (exp_part t) /\ wsim (snd (exp_part s)) (snd (exp_part t)).
Proof.
  intros Hh H. destruct (take1_wsim (fun c => lchr "e" c || lchr "p" c) s t ltac:(nb) Hh H) as [A B]. unfold exp_part. destruct (take1 s) as [x r], (take1 t) as [x' r']. cbn in A, B.
  destruct (opt_part_wsim (fun c => chr "+" c || chr "-" c) take1 r r' ltac:(nb)) as (A1 & A2 & A3); [|exact B|].
  { intros Hh'. apply (take1_wsim (fun c => chr "+" c || chr "-" c)); [nb|exact Hh'|exact B]. }
  destruct (opt_part _ take1 r) as [[b y] r2], (opt_part _ take1 r') as [[b' y'] r2']. cbn in A1, A2, A3.
  destruct (span_wsim is_dec_sep r2 nb_dec r2' A3) as [A' B']. destruct (span is_dec_sep r2), (span is_dec_sep r2'). cbn in *. subst.
  split; [reflexivity|assumption].
Qed.
Lemma scan_number_wsim s t : wsim s t ->
  fst (scan_number s) = fst (scan_number t) /\ wsim (snd (scan_number s)) (snd (scan_number t)).
Proof.
  intros H. rewrite !scan_number_eq. destruct (int_part_wsim s t H) as (A & B & C & D).
  destruct (int_part s) as [[a r] digs], (int_part t) as [[a' r'] digs']. cbn in A, B, C, D. subst a' digs'.
  destruct (opt_part_wsim (chr ".") (frac_part digs) r r' ltac:(nb)) as (A1 & A2 & A3); [intros Hh; apply frac_wsim; assumption|exact B|].
  destruct (opt_part _ (frac_part digs) r) as [[dot b] r1], (opt_part _ (frac_part digs) r') as [[dot' b'] r1']. cbn in A1, A2, A3. subst dot' b'.
  destruct (opt_part_wsim (fun c => lchr "e" c || lchr "p" c) exp_part r1 r1' ltac:(nb)) as (B1 & B2 & B3); [intros Hh; apply exp_wsim; assumption|exact A3|].
  destruct (opt_part _ exp_part r1) as [[ex c] r2], (opt_part _ exp_part r1') as [[ex' c'] r2']. cbn in B1, B2, B3. subst ex' c'.
  destruct (opt_part_wsim (chr "i") take1 r2 r2' ltac:(nb)) as (C1 & C2 & C3); [intros Hh; apply (take1_wsim (chr "i")); [nb|exact Hh|exact B3]|exact B3|].
  destruct (opt_part _ take1 r2) as [[im e] r3], (opt_part _ take1 r2') as [[im' e'] r3']. cbn in C1, C2, C3. subst im' e'.
  cbn. split; [reflexivity|exact C3].
Qed.
Lemma frac_length digs s : (String.length (snd (frac_part digs s)) <= String.length s)%nat.
Proof.
  unfold frac_part. pose proof (take1_length s). destruct (take1 s) as [x r]. cbn in *.
  pose proof (span_length digs r). destruct (span digs r). cbn in *. lia.
Qed.
Lemma exp_length s : (String.length (snd (exp_part s)) <= String.length s)%nat.
Proof.
  unfold exp_part. pose proof (take1_length s). destruct (take1 s) as [x r]. cbn in *.
  pose proof (opt_part_length (fun c => chr "+" c || chr "-" c) take1 r (take1_length r)) as O.
  destruct (opt_part _ take1 r) as [[b' y] r2]. cbn in O.
  pose proof (span_length is_dec_sep r2). destruct (span is_dec_sep r2). cbn in *. lia.
Qed.
(** What follows the integer part, after the fraction. *)
Definition num_tail (a b : string) (dot : bool) (r : string) : gtok * string :=
  let '(ex, c, r) := opt_part (fun c => lchr "e" c || lchr "p" c) exp_part r in
  let '(im, e, r) := opt_part (chr "i") take1 r in
  let lit := (a +++ b +++ c +++ e)%string in
  (if im then GImag lit else if dot || ex then GFloat lit else GInt lit, r).
Lemma num_tail_length a b dot r : (String.length (snd (num_tail a b dot r)) <= String.length r)%nat.
Proof.
  unfold num_tail. pose proof (opt_part_length (fun c => lchr "e" c || lchr "p" c) exp_part r (exp_length r)) as C.
  destruct (opt_part _ exp_part r) as [[ex c'] r2]. cbn in C.
  pose proof (opt_part_length (chr "i") take1 r2 (take1_length r2)) as D.
  destruct (opt_part _ take1 r2) as [[im e] r3]. cbn in *. lia.
Qed.
Lemma scan_number_tail s : scan_number s =
  let '(a, r, digs) := int_part s in let '(dot, b, r) := opt_part (chr ".") (frac_part digs) r in num_tail a b dot r.
Proof. reflexivity. Qed.
Lemma int_part_other c s : c <> "0"%char -> int_part (String c s) = let '(d, r) := span is_dec_sep (String c s) in (d, r, is_dec_sep).
Proof. intros N. destruct c as [b0 b1 b2 b3 b4 b5 b6 b7]. destruct b0, b1, b2, b3, b4, b5, b6, b7; try reflexivity. congruence. Qed.
Lemma scan_number_length c s : is_digit c || (Ascii.eqb c "." && head_is is_digit s) = true ->
  (String.length (snd (scan_number (String c s))) <= String.length s)%nat.
Proof.
  intros Dc. rewrite scan_number_tail. destruct (is_digit c) eqn:Ed.
  - assert (I : (String.length (snd (fst (int_part (String c s)))) <= String.length s)%nat).
    { destruct (Ascii.eqb_spec c "0") as [->|Nc].
      - cbn [int_part]. pose proof (take1_length s). destruct (take1 s) as [x r]. cbn in H.
        pose proof (span_length is_hex_sep r). pose proof (span_length is_dec_sep r). pose proof (span_length is_dec_sep s).
        destruct (span is_hex_sep r), (span is_dec_sep r), (span is_dec_sep s). cbn in *.
        destruct (head_is (fun c => lchr "x" c) s), (head_is (fun c => lchr "o" c || lchr "b" c) s); cbn; lia.
      - rewrite int_part_other by exact Nc. cbn [span]. unfold is_dec_sep at 1. rewrite Ed. cbn [orb].
        pose proof (span_length is_dec_sep s). destruct (span is_dec_sep s). cbn in *. lia. }
    destruct (int_part (String c s)) as [[a r] digs]. cbn in I.
    pose proof (opt_part_length (chr ".") (frac_part digs) r (frac_length digs r)) as B.
    destruct (opt_part _ (frac_part digs) r) as [[dot b] r1]. cbn in B. pose proof (num_tail_length a b dot r1). lia.
  - cbn [orb] in Dc. apply andb_true_iff in Dc. destruct Dc as [Dc _]. apply Ascii.eqb_eq in Dc. subst c.
    change (int_part (String "." s)) with (""%string, String "." s, is_dec_sep). cbn beta iota.
    pose proof (span_length is_dec_sep s) as L.
    replace (opt_part (chr ".") (frac_part is_dec_sep) (String "." s)) with
      (true, "." +++ fst (span is_dec_sep s), snd (span is_dec_sep s)) by (unfold opt_part, frac_part; cbn; destruct (span is_dec_sep s); reflexivity).
    pose proof (num_tail_length "" ("." +++ fst (span is_dec_sep s)) true (snd (span is_dec_sep s))). lia.
Qed.

(** ** Comments and operators *)
Lemma line_comment_run a s : blanks a = true -> line_comment (a +++ s) = line_comment s.
Proof.
  induction a as [|c a IH]; intros H; cbn in *; [reflexivity|]. apply andb_true_iff in H. destruct H as [Hc Ha].
  rewrite IH by exact Ha. apply blank_cases in Hc. destruct Hc as [->|[->| ->]]; reflexivity.
Qed.
Lemma line_comment_wsim s t : wsim s t -> wsim (line_comment s) (line_comment t).
Proof.
  induction 1 as [|c s t H IH|a b s t Ha Hb Na Nb H IH]; cbn; [constructor| |].
  - destruct (Ascii.eqb c nl); [constructor; exact H|exact IH].
  - rewrite !line_comment_run by assumption. exact IH.
Qed.
Lemma line_comment_length s : (String.length (line_comment s) <= String.length s)%nat.
Proof. induction s as [|c s IH]; cbn; [lia|]. destruct (Ascii.eqb c nl); cbn; lia. Qed.
Lemma block_comment_run a s : blanks a = true -> block_comment (a +++ s) = block_comment s.
Proof.
  induction a as [|c a IH]; intros H; cbn [blanks String.append block_comment] in *; [reflexivity|]. apply andb_true_iff in H. destruct H as [Hc Ha].
  rewrite IH by exact Ha. apply blank_cases in Hc. destruct Hc as [->|[->| ->]]; cbn; destruct (block_comment s); reflexivity.
Qed.
Lemma block_comment_wsim s t : wsim s t ->
  fst (block_comment s) = fst (block_comment t) /\ wsim (snd (block_comment s)) (snd (block_comment t)).
Proof.
  induction 1 as [|c s t H IH|a b s t Ha Hb Na Nb H IH]; [split; constructor| |].
  - cbn [block_comment]. rewrite <- (head_wsim (chr "/") s t ltac:(nb) H). destruct (Ascii.eqb c "*" && head_is (chr "/") s) eqn:E.
    + apply andb_true_iff in E. destruct E as [_ E]. destruct (take1_wsim (chr "/") s t ltac:(nb) E H) as [_ B]. destruct s, t; split; try reflexivity; exact B.
    + destruct (block_comment s), (block_comment t). cbn in *. destruct IH as [-> IH]. split; [reflexivity|exact IH].
  - rewrite !block_comment_run by assumption. exact IH.
Qed.
Lemma block_comment_length s : (String.length (snd (block_comment s)) <= String.length s)%nat.
Proof.
  induction s as [|c s IH]; cbn; [lia|]. destruct (Ascii.eqb c "*" && head_is (chr "/") s); [destruct s; cbn; lia|].
  destruct (block_comment s). cbn in *. lia.
Qed.

Fixpoint no_blank (s : string) : bool := match s with EmptyString => true | String c r => negb (is_blank c) && no_blank r end.
Lemma strip_wsim o : no_blank o = true -> forall s t, wsim s t ->
  match strip o s, strip o t with Some a, Some b => wsim a b | None, None => True | _, _ => False end.
Proof.
  induction o as [|c o IH]; intros Ho s t H; [exact H|]. cbn in Ho. apply andb_true_iff in Ho. destruct Ho as [Hc Ho]. apply negb_true_iff in Hc.
  destruct s as [|d s]; [apply wsim_inv_nil in H; subst; exact I|]. apply wsim_head in H. destruct H as [(B & d' & t' & -> & Bd)|(t' & -> & Hs)]; cbn.
  - destruct (Ascii.eqb_spec c d), (Ascii.eqb_spec c d'); try congruence. exact I.
  - destruct (Ascii.eqb c d); [apply IH; assumption|exact I].
Qed.
Lemma longest_op_wsim ops : forallb no_blank ops = true -> forall s t, wsim s t ->
  match longest_op ops s, longest_op ops t with
  | Some (o, a), Some (o', b) => o = o' /\ wsim a b
  | None, None => True
  | _, _ => False
  end.
Proof.
  induction ops as [|o ops IH]; intros Ho s t H; [exact I|]. cbn in Ho. apply andb_true_iff in Ho. destruct Ho as [Hc Ho]. cbn.
  pose proof (strip_wsim o Hc s t H) as S. destruct (strip o s), (strip o t); try contradiction; [split; [reflexivity|exact S]|apply IH; assumption].
Qed.
Lemma strip_length o : forall s r, strip o s = Some r -> (String.length s = String.length o + String.length r)%nat.
Proof.
  induction o as [|c o IH]; intros [|d s] r H; cbn in *; try discriminate; try (injection H as <-; reflexivity).
  destruct (Ascii.eqb c d); [|discriminate]. rewrite (IH _ _ H). lia.
Qed.
Lemma longest_op_length ops s o r : longest_op ops s = Some (o, r) -> In o ops /\ (String.length s = String.length o + String.length r)%nat.
Proof.
  induction ops as [|a ops IH]; cbn; [discriminate|]. destruct (strip a s) as [r'|] eqn:E; [intros [= <- <-]; split; [left; reflexivity|apply strip_length; exact E]|].
  intros H. destruct (IH H). split; [right; assumption|assumption].
Qed.
Lemma op_pos o : In o operators -> (1 <= String.length o)%nat.
Proof. intros H. cbn in H. repeat (destruct H as [<-|H]; [cbn; lia|]). contradiction. Qed.

(** ** The scanner *)
Lemma lex_blanks a : forall n semi s, blanks a = true -> lex (String.length a + n) semi (a +++ s) = lex n semi s.
Proof.
  induction a as [|c a IH]; intros n semi s H; [reflexivity|]. cbn [blanks] in H. apply andb_true_iff in H. destruct H as [Hc Ha].
  cbn [String.length Nat.add String.append lex]. rewrite Hc. apply IH. exact Ha.
Qed.
Lemma app_length a b : String.length (a +++ b) = (String.length a + String.length b)%nat.
Proof. induction a; cbn; [reflexivity|]. rewrite IHa. reflexivity. Qed.

Definition xlex (n : nat) (semi : bool) (s : string) : option (list ytok) :=
  match lex n semi s with Some ts => all_some Lex ts | None => None end.
Definition xcons (t : gtok) (o : option (list ytok)) : option (list ytok) :=
  match Lex t, o with Some y, Some r => Some (y :: r) | _, _ => None end.
Lemma xlex_cons t o : match option_map (cons t) o with Some ts => all_some Lex ts | None => None end =
  xcons t (match o with Some ts => all_some Lex ts | None => None end).
Proof. destruct o as [ts|]; cbn; unfold xcons; [reflexivity|]. destruct (Lex t); reflexivity. Qed.
Lemma xcons_none t : xcons t None = None. Proof. unfold xcons. destruct (Lex t); reflexivity. Qed.

Lemma xlex_S n semi c r : xlex (S n) semi (String c r) =
  let emit t r := xcons t (xlex n (ends_line t) r) in
  let s := String c r in
  if is_blank c then xlex n semi r
  else if Ascii.eqb c nl then if semi then xcons GSemi (xlex n false r) else xlex n false r
  else if is_letter c then let '(w, r') := span is_idchar s in emit (lookup_word w) r'
  else if is_digit c || (Ascii.eqb c "." && head_is is_digit r) then let '(t, r') := scan_number s in emit t r'
  else if Ascii.eqb c "/" && head_is (chr "/") r then xlex n semi (line_comment r)
  else if Ascii.eqb c "/" && head_is (chr "*") r then
    let '(b, r') := block_comment (match r with String _ r => r | EmptyString => EmptyString end) in
    if semi && b then xcons GSemi (xlex n false r') else xlex n semi r'
  else if Ascii.eqb c dquote || Ascii.eqb c "'" || Ascii.eqb c "`" then None
  else if Ascii.eqb c ";" then emit GSemi r
  else match longest_op operators s with
       | Some (o, r') => emit (GOp o) r'
       | None => None
       end.
Proof.
  unfold xlex at 1. cbn [lex]. unfold xlex.
  destruct (is_blank c); [reflexivity|].
  destruct (Ascii.eqb c nl); [destruct semi; [rewrite xlex_cons; reflexivity|reflexivity]|].
  destruct (is_letter c); [destruct (span is_idchar (String c r)); rewrite xlex_cons; reflexivity|].
  destruct (is_digit c || (Ascii.eqb c "." && head_is is_digit r)); [destruct (scan_number (String c r)); rewrite xlex_cons; reflexivity|].
  destruct (Ascii.eqb c "/" && head_is (chr "/") r); [reflexivity|].
  destruct (Ascii.eqb c "/" && head_is (chr "*") r).
  { destruct (block_comment _) as [b r']. destruct (semi && b); [rewrite xlex_cons; reflexivity|reflexivity]. }
  destruct (Ascii.eqb c dquote); cbn [orb]. { destruct (quoted dquote r); rewrite xlex_cons; destruct (lex _ _ _); reflexivity. }
  destruct (Ascii.eqb c "'"); cbn [orb]. { destruct (quoted "'" r); rewrite xlex_cons; destruct (lex _ _ _); reflexivity. }
  destruct (Ascii.eqb c "`"); cbn [orb]. { destruct (raw_quoted r); rewrite xlex_cons; destruct (lex _ _ _); reflexivity. }
  destruct (Ascii.eqb c ";"); [rewrite xlex_cons; reflexivity|].
  destruct (longest_op operators (String c r)) as [[o r']|]; [rewrite xlex_cons; reflexivity|]. rewrite xlex_cons. destruct (lex _ _ _); reflexivity.
Qed.

Lemma xlex_wsim n : forall m semi s t, (String.length s < n)%nat -> (String.length t < m)%nat -> wsim s t -> xlex n semi s = xlex m semi t.
Proof.
  induction n as [n IH] using lt_wf_ind. intros m semi s t Hn Hm H.
  destruct n as [|n]; [lia|]. destruct m as [|m]; [lia|].
  destruct H as [|c s t H|a b s t Ha Hb Na Nb H].
  - reflexivity.
  - cbn in Hn, Hm. rewrite !xlex_S. cbn zeta.
    destruct (is_blank c) eqn:Bc; [apply IH; auto; lia|].
    destruct (Ascii.eqb c nl); [destruct semi; [f_equal|]; apply IH; auto; lia|].
    destruct (is_letter c) eqn:Lc.
    { pose proof (span_wsim is_idchar _ nb_idchar _ (ws_char c s t H)) as [A B].
      pose proof (span_length is_idchar s) as L1. pose proof (span_length is_idchar t) as L2.
      cbn [span] in *. unfold is_idchar at 1 3 in A. unfold is_idchar at 1 3 in B. unfold is_idchar at 1 3. rewrite Lc in *. cbn [orb] in *.
      destruct (span is_idchar s) as [w r], (span is_idchar t) as [w' r']. cbn in A, B, L1, L2. rewrite A. f_equal. apply IH; auto; lia. }
    rewrite <- (head_wsim is_digit s t nb_digit H).
    destruct (is_digit c || (Ascii.eqb c "." && head_is is_digit s)) eqn:Dc.
    { pose proof (scan_number_length c s Dc) as L1. pose proof (scan_number_length c t) as L2. rewrite <- (head_wsim is_digit s t nb_digit H) in L2. specialize (L2 Dc).
      destruct (scan_number_wsim _ _ (ws_char c s t H)) as [A B].
      destruct (scan_number (String c s)) as [k r], (scan_number (String c t)) as [k' r']. cbn in A, B, L1, L2. subst k'. f_equal. apply IH; auto; lia. }
    rewrite <- (head_wsim (chr "/") s t ltac:(nb) H).
    destruct (Ascii.eqb c "/" && head_is (chr "/") s).
    { pose proof (line_comment_length s). pose proof (line_comment_length t). apply IH; [lia|lia|lia|]. apply line_comment_wsim. exact H. }
    rewrite <- (head_wsim (chr "*") s t ltac:(nb) H).
    destruct (Ascii.eqb c "/" && head_is (chr "*") s) eqn:Ec.
    { apply andb_true_iff in Ec. destruct Ec as [_ Ec]. destruct (take1_wsim (chr "*") s t ltac:(nb) Ec H) as [_ B].
      destruct s as [|c1 s]; [discriminate|]. destruct t as [|c2 t]; [apply wsim_head in H; destruct H as [(_ & ? & ? & ? & _)|(? & ? & _)]; discriminate|].
      cbn in B, Hn, Hm. destruct (block_comment_wsim _ _ B) as [P Q]. pose proof (block_comment_length s). pose proof (block_comment_length t).
      destruct (block_comment s) as [x r], (block_comment t) as [x' r']. cbn in P, Q, H0, H1. subst x'. destruct (semi && x); [apply (f_equal (xcons GSemi))|]; apply IH; auto; lia. }
    destruct (Ascii.eqb c dquote || Ascii.eqb c "'" || Ascii.eqb c "`"); [reflexivity|].
    destruct (Ascii.eqb c ";"); [f_equal; apply IH; auto; lia|].
    pose proof (longest_op_wsim operators eq_refl _ _ (ws_char c s t H)) as O.
    destruct (longest_op operators (String c s)) as [[o r]|] eqn:E1, (longest_op operators (String c t)) as [[o' r']|] eqn:E2; try contradiction; [|reflexivity].
    destruct O as [-> O]. apply longest_op_length in E1. apply longest_op_length in E2. destruct E1 as [I1 E1], E2 as [_ E2].
    pose proof (op_pos _ I1). cbn in E1, E2. f_equal. apply IH; auto; lia.
  - rewrite app_length in Hn, Hm. destruct a as [|ca a]; [congruence|]. destruct b as [|cb b]; [congruence|].
    pose proof (lex_blanks (String ca a) (S n - String.length (String ca a)) semi s Ha) as E1.
    pose proof (lex_blanks (String cb b) (S m - String.length (String cb b)) semi t Hb) as E2.
    replace (String.length (String ca a) + (S n - String.length (String ca a)))%nat with (S n) in E1 by (cbn [String.length] in *; lia).
    replace (String.length (String cb b) + (S m - String.length (String cb b)))%nat with (S m) in E2 by (cbn [String.length] in *; lia).
    unfold xlex. rewrite E1, E2. apply (IH (S n - String.length (String ca a))%nat); [cbn [String.length] in *; lia|cbn [String.length] in *; lia|cbn [String.length] in *; lia|exact H].
Qed.

Theorem x_tokens_wsim s t : wsim s t -> x_tokens s = x_tokens t.
Proof.
  intros H. change (x_tokens s) with (xlex (S (String.length s)) false s). change (x_tokens t) with (xlex (S (String.length t)) false t).
  apply xlex_wsim; [lia|lia|exact H].
Qed.

(** ** Newlines *)
(** Text without comments, literals and characters the scanner does not know. *)
Fixpoint plain (s : string) : bool :=
  match s with
  | EmptyString => true
  | String c r => negb (Ascii.eqb c "/" || Ascii.eqb c dquote || Ascii.eqb c "'" || Ascii.eqb c "`") &&
                  (is_blank c || Ascii.eqb c nl || is_letter c || is_digit c || Ascii.eqb c ";" || existsb (fun o => head_is (chr c) o) operators) && plain r
  end.
(** Whether the scanner is about to insert a semicolon after the tokens. *)
Definition pending (a : list gtok) : bool := match rev a with t :: _ => ends_line t | [] => false end.
Definition auto (b : bool) : list gtok := if b then [GSemi] else [].

(** *** Enough fuel is enough *)
Lemma quoted_length q s : (String.length (snd (quoted q s)) <= String.length s)%nat.
Proof.
  enough (H : forall n s, (String.length s <= n)%nat -> (String.length (snd (quoted q s)) <= String.length s)%nat) by (apply (H (String.length s)); lia).
  induction n as [|n IH]; intros [|c s'] Hn; cbn in *; try lia.
  destruct (Ascii.eqb c nl); [cbn; lia|]. destruct (Ascii.eqb c q); [cbn; lia|].
  destruct (Ascii.eqb c "\").
  - destruct s' as [|c2 s2]; [cbn; lia|]. cbn in Hn. specialize (IH s2 ltac:(lia)). destruct (quoted q s2). cbn in *. lia.
  - specialize (IH s' ltac:(lia)). destruct (quoted q s'). cbn in *. lia.
Qed.
Lemma raw_quoted_length s : (String.length (snd (raw_quoted s)) <= String.length s)%nat.
Proof. induction s as [|c s IH]; cbn; [lia|]. destruct (Ascii.eqb c "`"); [cbn; lia|]. destruct (raw_quoted s). cbn in *. lia. Qed.
Lemma span_first p c s : p c = true -> (String.length (snd (span p (String c s))) <= String.length s)%nat.
Proof. intros H. cbn. rewrite H. pose proof (span_length p s). destruct (span p s). cbn in *. lia. Qed.

Lemma lex_fuel n : forall m semi s, (String.length s < n)%nat -> (String.length s < m)%nat -> lex n semi s = lex m semi s.
Proof.
  induction n as [|n IH]; intros m semi s Hn Hm; [lia|]. destruct m as [|m]; [lia|]. destruct s as [|c r]; [reflexivity|]. cbn in Hn, Hm. cbn [lex].
  destruct (is_blank c); [apply IH; lia|].
  destruct (Ascii.eqb c nl); [destruct semi; [f_equal|]; apply IH; lia|].
  destruct (is_letter c) eqn:Lc.
  { pose proof (span_first is_idchar c r) as L. unfold is_idchar at 1 in L. rewrite Lc in L. specialize (L eq_refl).
    destruct (span is_idchar (String c r)). cbn in L. f_equal. apply IH; lia. }
  destruct (is_digit c || (Ascii.eqb c "." && head_is is_digit r)) eqn:Dc.
  { pose proof (scan_number_length c r Dc) as L. destruct (scan_number (String c r)). cbn in L. f_equal. apply IH; lia. }
  destruct (Ascii.eqb c "/" && head_is (chr "/") r); [pose proof (line_comment_length r); apply IH; lia|].
  destruct (Ascii.eqb c "/" && head_is (chr "*") r).
  { destruct r as [|c1 r]; [|pose proof (block_comment_length r) as L; cbn in Hn, Hm; destruct (block_comment r) as [b r']; cbn in L; destruct (semi && b); [f_equal|]; apply IH; lia].
    cbn. destruct semi; apply IH; cbn; lia. }
  destruct (Ascii.eqb c dquote); [pose proof (quoted_length dquote r) as L; destruct (quoted dquote r); cbn in L; f_equal; apply IH; lia|].
  destruct (Ascii.eqb c "'"); [pose proof (quoted_length "'" r) as L; destruct (quoted "'" r); cbn in L; f_equal; apply IH; lia|].
  destruct (Ascii.eqb c "`"); [pose proof (raw_quoted_length r) as L; destruct (raw_quoted r); cbn in L; f_equal; apply IH; lia|].
  destruct (Ascii.eqb c ";"); [f_equal; apply IH; lia|].
  destruct (longest_op operators (String c r)) as [[o r']|] eqn:E.
  - apply longest_op_length in E. destruct E as [I E]. pose proof (op_pos _ I). cbn in E. f_equal. apply IH; lia.
  - f_equal. apply IH; lia.
Qed.

(** *** A delimiter after [s] *)
Definition delim (c : ascii) : bool := is_blank c || Ascii.eqb c nl.
Definition nodelim (p : ascii -> bool) : Prop := forall c, delim c = true -> p c = false.
Lemma delim_cases c : delim c = true -> c = " "%char \/ c = tab \/ c = cr \/ c = nl.
Proof. unfold delim. rewrite orb_true_iff, Ascii.eqb_eq. intros [H| ->]; [apply blank_cases in H|]; tauto. Qed.
Ltac nd := intros ? ?Hb; apply delim_cases in Hb; destruct Hb as [->|[->|[->| ->]]]; reflexivity.

Section After.
Variable d : ascii.
Hypothesis Hd : delim d = true.
Variable t : string.
Notation "s ^^ 'T'" := (s +++ String d t) (at level 50).

Lemma head_after p s : nodelim p -> head_is p (s +++ String d t) = head_is p s.
Proof. intros Hp. destruct s; cbn; [apply Hp; exact Hd|reflexivity]. Qed.
Lemma span_after p s : nodelim p -> span p (s +++ String d t) = (fst (span p s), snd (span p s) +++ String d t).
Proof.
  intros Hp. induction s as [|c s IH]; cbn; [rewrite (Hp d Hd); reflexivity|]. destruct (p c); [|reflexivity].
  rewrite IH. destruct (span p s). reflexivity.
Qed.
Lemma take1_after p s : head_is p s = true -> take1 (s +++ String d t) = (fst (take1 s), snd (take1 s) +++ String d t).
Proof. destruct s; [discriminate|reflexivity]. Qed.
Lemma opt_part_after p f s : nodelim p -> (head_is p s = true -> f (s +++ String d t) = (fst (f s), snd (f s) +++ String d t)) ->
  opt_part p f (s +++ String d t) = (fst (fst (opt_part p f s)), snd (fst (opt_part p f s)), snd (opt_part p f s) +++ String d t).
Proof.
  intros Hp Hf. unfold opt_part. rewrite head_after by exact Hp. destruct (head_is p s); [|reflexivity].
  rewrite (Hf eq_refl). destruct (f s). reflexivity.
Qed.
Lemma nd_idchar : nodelim is_idchar. Proof. nd. Qed.
Lemma nd_dec : nodelim is_dec_sep. Proof. nd. Qed.
Lemma nd_hex : nodelim is_hex_sep. Proof. nd. Qed.
Lemma int_part_after s : s <> "" -> int_part (s +++ String d t) =
  (fst (fst (int_part s)), snd (fst (int_part s)) +++ String d t, snd (int_part s)) /\ nodelim (snd (int_part s)).
Proof.
  intros Ns. destruct s as [|c s]; [congruence|]. destruct (Ascii.eqb_spec c "0") as [->|Nc].
  - cbn [String.append int_part]. rewrite (head_after (fun c => lchr "x" c) s) by nd.
    destruct (head_is (fun c => lchr "x" c) s) eqn:Ex.
    { rewrite (take1_after (fun c => lchr "x" c)) by exact Ex. destruct (take1 s) as [x r]. cbn [fst snd].
      rewrite span_after by exact nd_hex. destruct (span is_hex_sep r). split; [reflexivity|exact nd_hex]. }
    rewrite (head_after (fun c => lchr "o" c || lchr "b" c) s) by nd.
    destruct (head_is (fun c => lchr "o" c || lchr "b" c) s) eqn:Eo.
    { rewrite (take1_after (fun c => lchr "o" c || lchr "b" c)) by exact Eo. destruct (take1 s) as [x r]. cbn [fst snd].
      rewrite span_after by exact nd_dec. destruct (span is_dec_sep r). split; [reflexivity|exact nd_dec]. }
    rewrite span_after by exact nd_dec. destruct (span is_dec_sep s). split; [reflexivity|exact nd_dec].
  - cbn [String.append]. rewrite !int_part_other by exact Nc. change (String c (s +++ String d t)) with (String c s +++ String d t).
    rewrite span_after by exact nd_dec. destruct (span is_dec_sep (String c s)). split; [reflexivity|exact nd_dec].
Qed.
Lemma frac_after digs s : nodelim digs -> head_is (chr ".") s = true -> frac_part digs (s +++ String d t) = (fst (frac_part digs s), snd (frac_part digs s) +++ String d t).
Proof.
  intros Hg Hh. unfold frac_part. rewrite (take1_after (chr ".")) by exact Hh. destruct (take1 s) as [x r]. cbn [fst snd].
  rewrite span_after by exact Hg. destruct (span digs r). reflexivity.
Qed.
Lemma exp_after s : head_is (fun c => lchr "e" c || lchr "p" c) s = true -> exp_part (s +++ String d t) = (fst (exp_part s), snd (exp_part s) +++ String d t).
Proof.
  intros Hh. unfold exp_part. rewrite (take1_after _ _ Hh). destruct (take1 s) as [x r]. cbn [fst snd].
  rewrite opt_part_after; [|nd|intros Hh'; apply (take1_after _ _ Hh')].
  destruct (opt_part _ take1 r) as [[b y] r2]. cbn [fst snd]. rewrite span_after by exact nd_dec. destruct (span is_dec_sep r2). reflexivity.
Qed.
Lemma scan_number_after s : s <> "" -> scan_number (s +++ String d t) = (fst (scan_number s), snd (scan_number s) +++ String d t).
Proof.
  intros Ns. rewrite !scan_number_tail. destruct (int_part_after s Ns) as [E N]. rewrite E. destruct (int_part s) as [[a r] digs]. cbn [fst snd] in *.
  rewrite opt_part_after; [|nd|intros Hh; apply frac_after; assumption]. destruct (opt_part _ (frac_part digs) r) as [[dot b] r1]. cbn [fst snd].
  unfold num_tail. rewrite opt_part_after; [|nd|apply exp_after]. destruct (opt_part _ exp_part r1) as [[ex c'] r2]. cbn [fst snd].
  rewrite opt_part_after; [|nd|intros Hh'; apply (take1_after _ _ Hh')]. destruct (opt_part _ take1 r2) as [[im e] r3]. reflexivity.
Qed.
Fixpoint no_delim (s : string) : bool := match s with EmptyString => true | String c r => negb (delim c) && no_delim r end.
Lemma strip_after o : no_delim o = true -> forall s, strip o (s +++ String d t) = option_map (fun r => r +++ String d t) (strip o s).
Proof.
  induction o as [|c o IH]; intros Ho s; [reflexivity|]. cbn in Ho. apply andb_true_iff in Ho. destruct Ho as [Hc Ho]. apply negb_true_iff in Hc.
  destruct s as [|e s]; cbn; [destruct (Ascii.eqb_spec c d); congruence|]. destruct (Ascii.eqb c e); [apply IH; exact Ho|reflexivity].
Qed.
Lemma longest_op_after ops s : forallb no_delim ops = true ->
  longest_op ops (s +++ String d t) = option_map (fun p => (fst p, snd p +++ String d t)) (longest_op ops s).
Proof.
  induction ops as [|o ops IH]; intros Ho; [reflexivity|]. cbn in Ho. apply andb_true_iff in Ho. destruct Ho as [Hc Ho]. cbn.
  rewrite strip_after by exact Hc. destruct (strip o s); [reflexivity|apply IH; exact Ho].
Qed.
End After.

(** *** Suffixes of plain text are plain *)
Definition suffix (r s : string) : Prop := exists p, s = p +++ r.
Lemma suffix_refl s : suffix s s. Proof. exists "". reflexivity. Qed.
Lemma suffix_cons c r s : suffix r s -> suffix r (String c s). Proof. intros [p ->]. exists (String c p). reflexivity. Qed.
Lemma sapp_assoc a b c : (a +++ b) +++ c = a +++ b +++ c. Proof. induction a; cbn; [reflexivity|]. rewrite IHa. reflexivity. Qed.
Lemma suffix_trans a b c : suffix a b -> suffix b c -> suffix a c.
Proof. intros [p ->] [q ->]. exists (q +++ p). symmetry. apply sapp_assoc. Qed.
Lemma plain_suffix r s : suffix r s -> plain s = true -> plain r = true.
Proof. intros [p ->]. induction p as [|c p IH]; [auto|]. cbn. rewrite !andb_true_iff. tauto. Qed.
Lemma span_suffix p s : suffix (snd (span p s)) s.
Proof. induction s as [|c s IH]; cbn; [apply suffix_refl|]. destruct (p c); [destruct (span p s); apply suffix_cons; exact IH|apply suffix_refl]. Qed.
Lemma take1_suffix s : suffix (snd (take1 s)) s.
Proof. destruct s; cbn; [apply suffix_refl|apply suffix_cons, suffix_refl]. Qed.
Lemma opt_part_suffix p f s : suffix (snd (f s)) s -> suffix (snd (opt_part p f s)) s.
Proof. intros H. unfold opt_part. destruct (head_is p s); [destruct (f s); exact H|apply suffix_refl]. Qed.
Lemma frac_suffix digs s : suffix (snd (frac_part digs s)) s.
Proof.
  unfold frac_part. pose proof (take1_suffix s). destruct (take1 s) as [x r]. pose proof (span_suffix digs r). destruct (span digs r).
  cbn in *. eapply suffix_trans; eassumption.
Qed.
Lemma exp_suffix s : suffix (snd (exp_part s)) s.
Proof.
  unfold exp_part. pose proof (take1_suffix s) as A. destruct (take1 s) as [x r].
  pose proof (opt_part_suffix (fun c => chr "+" c || chr "-" c) take1 r (take1_suffix r)) as B. destruct (opt_part _ take1 r) as [[b y] r2].
  pose proof (span_suffix is_dec_sep r2) as C. destruct (span is_dec_sep r2). cbn in *. eapply suffix_trans; [exact C|]. eapply suffix_trans; eassumption.
Qed.
Lemma int_part_suffix s : suffix (snd (fst (int_part s))) s.
Proof.
  assert (F : forall s, suffix (snd (fst (let '(d, r) := span is_dec_sep s in (d, r, is_dec_sep)))) s).
  { intros s0. pose proof (span_suffix is_dec_sep s0). destruct (span is_dec_sep s0). exact H. }
  destruct s as [|c s]; [apply suffix_refl|]. destruct (Ascii.eqb_spec c "0") as [->|Nc]; [|rewrite int_part_other by exact Nc; apply F].
  cbn [int_part]. pose proof (take1_suffix s) as A. destruct (take1 s) as [x r].
  pose proof (span_suffix is_hex_sep r) as B1. pose proof (span_suffix is_dec_sep r) as B2. pose proof (span_suffix is_dec_sep s) as B3.
  destruct (span is_hex_sep r), (span is_dec_sep r), (span is_dec_sep s). cbn in A, B1, B2, B3.
  destruct (head_is (fun c => lchr "x" c) s), (head_is (fun c => lchr "o" c || lchr "b" c) s); cbn; apply suffix_cons; try assumption; eapply suffix_trans; eassumption.
Qed.
Lemma scan_number_suffix s : suffix (snd (scan_number s)) s.
Proof.
  rewrite scan_number_tail. pose proof (int_part_suffix s) as A. destruct (int_part s) as [[a r] digs].
  pose proof (opt_part_suffix (chr ".") (frac_part digs) r (frac_suffix digs r)) as B. destruct (opt_part _ (frac_part digs) r) as [[dot b] r1].
  unfold num_tail. pose proof (opt_part_suffix (fun c => lchr "e" c || lchr "p" c) exp_part r1 (exp_suffix r1)) as C. destruct (opt_part _ exp_part r1) as [[ex c'] r2].
  pose proof (opt_part_suffix (chr "i") take1 r2 (take1_suffix r2)) as D. destruct (opt_part _ take1 r2) as [[im e] r3]. cbn in *.
  eapply suffix_trans; [exact D|]. eapply suffix_trans; [exact C|]. eapply suffix_trans; eassumption.
Qed.
Lemma strip_suffix o : forall s r, strip o s = Some r -> suffix r s.
Proof.
  induction o as [|c o IH]; intros [|e s] r H; cbn in H; try discriminate; try (injection H as <-; apply suffix_refl).
  destruct (Ascii.eqb c e); [|discriminate]. apply suffix_cons, IH, H.
Qed.
Lemma longest_op_suffix ops s o r : longest_op ops s = Some (o, r) -> suffix r s.
Proof. induction ops as [|a ops IH]; cbn; [discriminate|]. destruct (strip a s) eqn:E; [intros [= _ <-]; eapply strip_suffix; exact E|exact IH]. Qed.
Lemma longest_op_some ops o s : In o ops -> strip o s <> None -> longest_op ops s <> None.
Proof. induction ops as [|a ops IH]; cbn; [tauto|]. intros [->|H] N; [destruct (strip o s); congruence|]. destruct (strip a s); [congruence|apply IH; assumption]. Qed.
Lemma op_head c r : existsb (fun o => head_is (chr c) o) operators = true -> longest_op operators (String c r) <> None.
Proof.
  intros H. apply (longest_op_some _ (String c "")); [|cbn; rewrite Ascii.eqb_refl; discriminate].
  destruct c as [b0 b1 b2 b3 b4 b5 b6 b7]. destruct b0, b1, b2, b3, b4, b5, b6, b7; try discriminate H; cbn; tauto.
Qed.

Definition after (semi : bool) (a : list gtok) : bool := match rev a with t :: _ => ends_line t | [] => semi end.
Lemma after_cons semi t a : after semi (t :: a) = after (ends_line t) a.
Proof. unfold after. cbn [rev]. destruct (rev a) as [|u l]; reflexivity. Qed.

Definition cont (d : ascii) (semi : bool) (a : list gtok) (t : string) : option (list gtok) :=
  if Ascii.eqb d nl then option_map (app (a ++ auto (after semi a))) (go_tokens t)
  else option_map (app a) (lex (S (String.length t)) (after semi a) t).
Lemma cont_cons d semi u a t : cont d semi (u :: a) t = option_map (cons u) (cont d (ends_line u) a t).
Proof. unfold cont. rewrite after_cons. destruct (Ascii.eqb d nl); [destruct (go_tokens t)|destruct (lex _ _ t)]; reflexivity. Qed.
Lemma cont_nil k d semi t : delim d = true -> (S (String.length t) < k)%nat -> lex k semi (String d t) = cont d semi [] t.
Proof.
  intros Hd Hk. destruct k as [|k]; [lia|]. cbn [lex]. unfold cont. change (after semi []) with semi. cbn [app].
  unfold delim in Hd. destruct (Ascii.eqb_spec d nl) as [->|Nd].
  - change (is_blank nl) with false. cbn iota. unfold go_tokens. rewrite (lex_fuel k (S (String.length t)) false t) by lia.
    destruct semi, (lex (S (String.length t)) false t); reflexivity.
  - rewrite orb_false_r in Hd. rewrite Hd. rewrite (lex_fuel k (S (String.length t))) by lia. destruct (lex (S (String.length t)) semi t); reflexivity.
Qed.
Lemma lex_after n : forall semi s, (String.length s < n)%nat -> plain s = true ->
  exists a, lex n semi s = Some (a ++ auto (after semi a)) /\
    forall d t k, delim d = true -> (String.length (s +++ String d t) < k)%nat -> lex k semi (s +++ String d t) = cont d semi a t.
Proof.
  induction n as [|n IH]; intros semi s Hn Pl; [lia|]. destruct s as [|c r].
  - exists []. split; [destruct semi; reflexivity|]. intros d t k Hd Hk. apply cont_nil; [exact Hd|exact Hk].
  - pose proof Pl as Pl0. cbn in Pl. apply andb_true_iff in Pl. destruct Pl as [Pl Pr]. apply andb_true_iff in Pl. destruct Pl as [P1 P2].
    apply negb_true_iff in P1. apply orb_false_iff in P1. destruct P1 as [P1 Q4]. apply orb_false_iff in P1. destruct P1 as [P1 Q3]. apply orb_false_iff in P1. destruct P1 as [Q1 Q2].
    cbn in Hn.
    (* the token [u] read from the front, leaving [r'] *)
    assert (Step : forall u r', suffix r' r ->
      (forall k, lex (S k) semi (String c r) = option_map (cons u) (lex k (ends_line u) r')) ->
      (forall d t k, delim d = true -> lex (S k) semi (String c r +++ String d t) = option_map (cons u) (lex k (ends_line u) (r' +++ String d t))) ->
      exists a, lex (S n) semi (String c r) = Some (a ++ auto (after semi a)) /\
      forall d t k, delim d = true -> (String.length (String c r +++ String d t) < k)%nat -> lex k semi (String c r +++ String d t) = cont d semi a t).
    { intros u r' Sf E1 E2. assert (L : (String.length r' <= String.length r)%nat) by (destruct Sf as [p ->]; rewrite app_length; lia).
      destruct (IH (ends_line u) r') as (a & A1 & A2); [lia|eapply plain_suffix; eassumption|].
      exists (u :: a). rewrite after_cons. split; [rewrite E1; rewrite A1; reflexivity|].
      intros d t [|k] Hd Hk; [lia|]. cbn [String.append String.length] in Hk. rewrite app_length in Hk. cbn in Hk.
      rewrite E2 by exact Hd. rewrite A2 by (try exact Hd; rewrite app_length; cbn; lia). symmetry. apply cont_cons. }
    destruct (is_blank c) eqn:Bc.
    { destruct (IH semi r) as (a & A1 & A2); [lia|exact Pr|]. exists a. split; [cbn [lex]; rewrite Bc; exact A1|].
      intros d t [|k] Hd Hk; [lia|]. cbn [String.append String.length] in *. cbn [lex]. rewrite Bc. apply A2; [exact Hd|lia]. }
    destruct (Ascii.eqb c nl) eqn:Ec.
    { destruct semi.
      - apply (Step GSemi r (suffix_refl r)); intros; cbn [String.append lex]; rewrite Bc, Ec; reflexivity.
      - destruct (IH false r) as (a & A1 & A2); [lia|exact Pr|]. exists a. split; [cbn [lex]; rewrite Bc, Ec; exact A1|].
        intros d t [|k] Hd Hk; [lia|]. cbn [String.append String.length] in *. cbn [lex]. rewrite Bc, Ec. apply A2; [exact Hd|lia]. }
    destruct (is_letter c) eqn:Lc.
    { assert (Sp : exists w r', span is_idchar (String c r) = (w, r') /\ suffix r' r).
      { cbn [span]. unfold is_idchar at 1. rewrite Lc. cbn [orb]. pose proof (span_suffix is_idchar r). destruct (span is_idchar r) as [w r']. eauto. }
      destruct Sp as (w & r' & Es & Sf). apply (Step (lookup_word w) r' Sf).
      - intros k. cbn [lex]. rewrite Bc, Ec, Lc, Es. reflexivity.
      - intros d t k Hd. pose proof (span_after d Hd t is_idchar (String c r) nd_idchar) as Ea. cbn [String.append] in Ea. cbn [String.append lex]. rewrite Bc, Ec, Lc, Ea, Es. reflexivity. }
    destruct (is_digit c || (Ascii.eqb c "." && head_is is_digit r)) eqn:Dc.
    { assert (Sf : suffix (snd (scan_number (String c r))) r).
      { pose proof (scan_number_suffix (String c r)) as [p Ep]. destruct p as [|c' p].
        - pose proof (scan_number_length c r Dc) as L. cbn [String.append] in Ep. rewrite <- Ep in L. cbn in L. lia.
        - injection Ep as _ Ep. exists p. exact Ep. }
      apply (Step (fst (scan_number (String c r))) _ Sf).
      - intros k. cbn [lex]. rewrite Bc, Ec, Lc, Dc. destruct (scan_number (String c r)). reflexivity.
      - intros d t k Hd. pose proof (scan_number_after d Hd t (String c r) ltac:(discriminate)) as Ea. cbn [String.append] in Ea. cbn [String.append lex].
        rewrite (head_after d Hd t is_digit r) by nd. rewrite Bc, Ec, Lc, Dc, Ea. reflexivity. }
    destruct (Ascii.eqb c ";") eqn:E3.
    { apply (Step GSemi r (suffix_refl r)).
      - intros k. cbn [lex]. rewrite Bc, Ec, Lc, Dc, Q1, Q2, Q3, Q4, E3. reflexivity.
      - intros d t k Hd. cbn [String.append lex]. rewrite (head_after d Hd t is_digit r) by nd. rewrite Bc, Ec, Lc, Dc, Q1, Q2, Q3, Q4, E3. reflexivity. }
    assert (Ho : existsb (fun o => head_is (chr c) o) operators = true).
    { destruct (is_digit c); [discriminate Dc|]. cbn [orb] in P2. exact P2. }
    pose proof (op_head c r Ho) as No. destruct (longest_op operators (String c r)) as [[o r']|] eqn:Eo; [|congruence].
    assert (Sf : suffix r' r).
    { pose proof (longest_op_suffix _ _ _ _ Eo) as [p Ep]. destruct p as [|c' p].
      - apply longest_op_length in Eo. destruct Eo as [I L]. pose proof (op_pos _ I). rewrite Ep in L. cbn in L. lia.
      - injection Ep as _ Ep. exists p. exact Ep. }
    apply (Step (GOp o) r' Sf).
    + intros k. cbn [lex]. rewrite Bc, Ec, Lc, Dc, Q1, Q2, Q3, Q4, E3, Eo. reflexivity.
    + intros d t k Hd. pose proof (longest_op_after d Hd t operators (String c r) eq_refl) as Ea. cbn [String.append] in Ea. cbn [String.append lex].
      rewrite (head_after d Hd t is_digit r) by nd. rewrite Bc, Ec, Lc, Dc, Q1, Q2, Q3, Q4, E3, Ea, Eo. reflexivity.
Qed.

(** The tokens of plain text followed by a newline or a blank. *)
Theorem newline_tokens s : plain s = true ->
  exists a, go_tokens s = Some (a ++ auto (pending a)) /\ forall t,
    go_tokens (s +++ String nl t) = option_map (app (a ++ auto (pending a))) (go_tokens t) /\
    forall d, is_blank d = true -> pending a = false -> go_tokens (s +++ String d t) = go_tokens (s +++ String nl t).
Proof.
  intros Pl. destruct (lex_after (S (String.length s)) false s ltac:(lia) Pl) as (a & A & B). exists a. split; [exact A|]. intros t. split.
  - unfold go_tokens at 1. rewrite B by (try reflexivity; lia). reflexivity.
  - intros d Hd Hp. unfold go_tokens. rewrite !B by (try reflexivity; try lia; unfold delim; rewrite Hd; reflexivity).
    unfold cont. change (after false a) with (pending a). rewrite Hp. cbn [auto]. rewrite app_nil_r.
    destruct (Ascii.eqb_spec d nl) as [->|_]; [discriminate|]. reflexivity.
Qed.

(** ** Enums *)
(** Whether the tokens leave an enum open; [None] when a semicolon occurs inside one. *)
Fixpoint enum_run (open : bool) (ts : list ytok) : option bool :=
  match ts with
  | [] => Some open
  | KWENUM :: r => enum_run true r
  | YRBrace :: r => enum_run false r
  | YSemi :: r => if open then None else enum_run open r
  | _ :: r => enum_run open r
  end.
Lemma enum_run_app o a b : enum_run o (a ++ b) = match enum_run o a with Some o' => enum_run o' b | None => None end.
Proof. revert o. induction a as [|t a IH]; intros o; [reflexivity|]. cbn. destruct t; try apply IH. destruct o; [reflexivity|apply IH]. Qed.
Ltac er := intros; repeat (cbn [enum_run app]; rewrite ?enum_run_app); repeat match goal with H : enum_run _ _ = _ |- _ => rewrite H; clear H; repeat (cbn [enum_run app]; rewrite ?enum_run_app) end; try reflexivity.
Lemma er_val s ts : D_val s ts -> forall o, enum_run o ts = Some o. Proof. intros []; reflexivity. Qed.
Lemma er_varlen s ts : D_varlen s ts -> forall o, enum_run o ts = Some o.
Proof. intros [|s' v H] o; [reflexivity|]. cbn. rewrite enum_run_app, (er_val _ _ H). reflexivity. Qed.
Lemma er_items l ts : D_enumitems l ts -> enum_run true ts = Some true.
Proof.
  induction 1 as [i ts H|l ts i ts' _ IH H].
  - destruct H as [n s v H]. cbn. apply (er_val _ _ H).
  - rewrite enum_run_app, IH. destruct H as [n s v H]. cbn. apply (er_val _ _ H).
Qed.
Lemma er_enumbody l ts : D_enumbody l ts -> enum_run true ts = Some false.
Proof. intros [l' ts' H]. cbn. rewrite enum_run_app, (er_items _ _ H). reflexivity. Qed.
Lemma er_caselist l ts : D_caselist l ts -> forall o, enum_run o ts = Some o.
Proof.
  induction 1 as [s v H|l ts s v _ IH H]; intros o; [cbn; rewrite enum_run_app, (er_val _ _ H); reflexivity|].
  rewrite enum_run_app, IH. cbn. rewrite enum_run_app, (er_val _ _ H). reflexivity.
Qed.
Definition closed (ts : list ytok) : Prop := enum_run false ts = Some false.
Lemma er_all : (forall t ts, D_typespec t ts -> closed ts) /\ (forall t ts, D_decl t ts -> closed ts) /\ (forall t ts, D_structbody t ts -> closed ts) /\
  (forall t ts, D_structdecls t ts -> closed ts) /\ (forall s c d ts, D_unionbody s c d ts -> closed ts) /\ (forall c d ts, D_unioncasesdef c d ts -> closed ts) /\
  (forall t ts, D_unioncases t ts -> closed ts) /\ (forall t ts, D_unioncase t ts -> closed ts).
Proof.
  apply D_mutind; unfold closed; intros;
    repeat match goal with
    | H : D_unsig _ _ |- _ => destruct H
    | H : D_val _ _ |- _ => pose proof (er_val _ _ H false); clear H
    | H : D_varlen _ _ |- _ => pose proof (er_varlen _ _ H false); clear H
    | H : D_caselist _ _ |- _ => pose proof (er_caselist _ _ H false); clear H
    | H : D_enumbody _ _ |- _ => apply er_enumbody in H
    end; er.
Qed.
Lemma er_spec l ts : D_spec l ts -> closed ts.
Proof.
  destruct er_all as (T & D & S & _ & U & _).
  assert (O : forall o ts, D_typespecopt o ts -> closed ts) by (intros o ts0 []; [reflexivity|eapply T; eassumption]).
  assert (C : forall o ts, D_progcall o ts -> closed ts).
  { intros o ts0 [r tr n a ta c H1 H2]. apply O in H1. apply O in H2. unfold closed in *. er. }
  assert (CS : forall o ts, D_progcalls o ts -> closed ts).
  { induction 1 as [|l0 ts0 c ts' _ IH H]; [reflexivity|]. apply C in H. unfold closed in *. er. }
  assert (VS : forall o ts, D_progvers o ts -> closed ts).
  { induction 1 as [|l0 ts0 c ts' _ IH H]; [reflexivity|]. destruct H as [n l1 ts1 c H]. apply CS in H. unfold closed in *. er. }
  induction 1 as [|l0 ts0 d ts' _ IH H]; [reflexivity|]. unfold closed in *. rewrite enum_run_app, IH.
  destruct H as [d ts1 H|n l1 ts1 H|n l1 ts1 H|n s c d ts1 H|n c|n l1 ts1 c H].
  - apply D in H. unfold closed in H. er.
  - apply er_enumbody in H. er.
  - apply S in H. unfold closed in H. er.
  - apply U in H. unfold closed in H. er.
  - reflexivity.
  - apply VS in H. unfold closed in H. er.
Qed.
(** No accepted token sequence has a semicolon between [enum] and the brace closing it. *)
Theorem enum_no_semi l ts a b c : D_spec l ts -> ts = a ++ KWENUM :: b ++ YRBrace :: c -> ~ In YRBrace b -> ~ In YSemi b.
Proof.
  intros H -> Nb Sb. apply er_spec in H. unfold closed in H. rewrite enum_run_app in H. destruct (enum_run false a) as [o|]; [|discriminate].
  cbn in H. assert (F : forall b r, ~ In YRBrace b -> In YSemi b -> enum_run true (b ++ r) = None).
  { clear. induction b as [|t b IH]; intros r Nb Sb; [contradiction|]. destruct Sb as [->|Sb]; [reflexivity|].
    assert (~ In YRBrace b) by (intros X; apply Nb; right; exact X).
    cbn. destruct t; try (apply IH; assumption); try reflexivity. exfalso. apply Nb. left. reflexivity. }
  rewrite F in H by assumption. discriminate.
Qed.

Lemma all_some_app {A B} (f : A -> option B) a b :
  all_some f (a ++ b) = match all_some f a, all_some f b with Some x, Some y => Some (x ++ y) | _, _ => None end.
Proof.
  induction a as [|x a IH]; cbn; [destruct (all_some f b); reflexivity|]. rewrite IH. destruct (f x), (all_some f a), (all_some f b); reflexivity.
Qed.
Lemma enum_open_semi b r : ~ In YRBrace b -> enum_run true (b ++ YSemi :: r) = None.
Proof.
  induction b as [|x b IH]; intros N; [reflexivity|]. assert (~ In YRBrace b) by (intros X; apply N; right; exact X).
  cbn. destruct x; try (apply IH; assumption); try reflexivity. exfalso. apply N. left. reflexivity.
Qed.
(** A newline after a token that ends a line, inside an enum, makes the text unacceptable. *)
Theorem enum_newline s t a p b : plain s = true -> go_tokens s = Some (a ++ [GSemi]) -> pending a = true ->
  all_some Lex a = Some (p ++ KWENUM :: b) -> ~ In YRBrace b -> front (s +++ String nl t) = None.
Proof.
  intros Pl Hs Pa Ha Nb. destruct (newline_tokens s Pl) as (a' & A & B). destruct (B t) as [B1 _]. rewrite Hs in A.
  assert (E : a' ++ auto (pending a') = a ++ [GSemi]) by congruence.
  unfold front, x_tokens. rewrite B1, E. destruct (go_tokens t) as [tt|]; [|reflexivity]. cbn [option_map].
  rewrite <- app_assoc, all_some_app, Ha. cbn [app all_some Lex]. destruct (all_some Lex tt) as [yt|]; [|reflexivity].
  destruct (parse _) as [l|] eqn:Ep; [|reflexivity]. apply parse_iff, er_spec in Ep. unfold closed in Ep.
  rewrite <- app_assoc, enum_run_app in Ep. destruct (enum_run false p); [|discriminate]. exfalso. cbn [app enum_run] in Ep. rewrite enum_open_semi in Ep by exact Nb. discriminate.
Qed.
