(** Example runs of the generator. *)
From Verif Require Import GoLex XLex Gram GParse Emit GEmitP FileSys FileSysP.
Open Scope string_scope.
Open Scope list_scope.

(** All writes as Emit.v makes them. *)
Definition whole (fl : flags) (src : string) : list write :=
  match front src with Some ds => match emit_list (emit fl) ds with Some ws => ws | None => [] end | None => [] end.
Lemma whole_cut fl : cut_up fl (whole fl).
Proof. intros src ds ws F E. unfold whole. rewrite F, E. split; reflexivity. Qed.
(** Every run can come to an end. *)
Lemma gen_ends i o t fl gofmt partial fs0 : exists st fs, gen_run true i o t fl gofmt partial fs0 (Done st) fs.
Proof. destruct (ends (main i o t fl gofmt partial (whole fl)) fs0) as (st & fs & R). exists st, fs, (whole fl). split; [apply whole_cut|exact R]. Qed.
Lemma order i o t fl gofmt partial fs0 strict c fs : gen_run strict i o t fl gofmt partial fs0 c fs ->
  (forall p, ~ In p (tmps o t) -> fs p = fs0 p) \/
  ((exists src out ty, fs0 i = Some src /\ generate fl src = Some (out, ty)) /\ (exists txt f, gofmt txt = Some f) /\
   ((forall p, ~ In p (o :: tmps o t) -> fs p = fs0 p) \/ ((forall p, ~ In p (t :: o :: tmps o t) -> fs p = fs0 p) /\ t <> ""))).
Proof.
  intros (pieces & Hc & R). pose proof (always_reach _ _ _ _ R (main_order i o t fl gofmt partial pieces fs0 strict)) as [S|((src & ds & ws & A & B & C) & F & D)]; [left; exact S|].
  right. split; [exists src; unfold generate; rewrite B; cbn [pbind]; rewrite C; cbn [pbind]; eauto|]. split; [exact F|].
  destruct D as [D|[D W]]; [left; exact D|right; split; [exact D|]]. intros ->. discriminate.
Qed.
Lemma contents i o t fl gofmt partial fs0 strict c fs p : gen_run strict i o t fl gofmt partial fs0 c fs -> ~ In p (tmps o t) ->
  fs p = fs0 p \/ exists txt a b, gofmt txt = Some (a +++ b) /\ fs p = Some a.
Proof. intros (pieces & Hc & R). exact (always_reach _ _ _ _ R (main_made i o t fl gofmt partial pieces fs0 strict) p). Qed.
Lemma failing i o t fl gofmt partial fs0 strict c fs src : fs0 i = Some src -> generate fl src = None ->
  gen_run strict i o t fl gofmt partial fs0 c fs -> (forall p, ~ In p (tmps o t) -> fs p = fs0 p) /\ c <> Done Success.
Proof.
  intros E G (pieces & Hc & R). assert (N : ~ parses i fl fs0).
  { intros (src' & ds & ws & A & B & C). unfold generate in G. rewrite E in A. injection A as <-. rewrite B in G. cbn [pbind] in G. rewrite C in G. discriminate. }
  pose proof (always_reach _ _ _ _ R (main_fail i o t fl gofmt partial pieces fs0 strict N)) as [S F]. split; [exact S|]. intros ->. exact F.
Qed.
Lemma failing_restores i o t fl gofmt partial fs0 st fs src : i <> "" -> o <> "" -> fl_types fl = with_types t -> fs0 i = Some src -> generate fl src = None ->
  gen_run true i o t fl gofmt partial fs0 (Done st) fs -> st <> Success /\ forall p, fs p = fs0 p.
Proof. intros Hi Ho Hf E G (pieces & Hc & R). exact (always_reach _ _ _ _ R (fail_restores i o t fl gofmt partial pieces fs0 Hi Ho Hf src E G)). Qed.
Lemma success i o t fl gofmt partial fs0 src out types f g st fs : i <> "" -> o <> "" -> t <> "" -> fl_types fl = true -> fs0 i = Some src ->
  generate fl src = Some (out, Some types) -> fs0 (outTmp o) = None -> fs0 (toutTmp t) = None -> t <> o -> t <> outTmp o -> toutTmp t <> o ->
  gofmt out = Some f -> gofmt types = Some g ->
  gen_run true i o t fl gofmt partial fs0 (Done st) fs -> st = Success /\ fs o = Some f /\ fs t = Some g /\ forall p, p <> o -> p <> t -> fs p = fs0 p.
Proof.
  intros Hi Ho Ht Hf E G N1 N2 D1 D2 D3 F1 F2 (pieces & Hc & R). assert (W : with_types t = true) by (unfold with_types; apply String.eqb_neq in Ht; rewrite Ht; reflexivity).
  pose proof (always_reach _ _ _ _ R (generated i o t fl gofmt partial pieces fs0 Hi Ho (eq_trans Hf (eq_sym W)) Hc src out (Some types) E G N1 (fun _ => conj N2 (conj D1 (conj D2 D3))))) as Q.
  cbn in Q. rewrite F1, F2 in Q. destruct Q as [-> Q]. split; [reflexivity|].
  rewrite !Q. rewrite !String.eqb_refl. apply not_eq_sym, String.eqb_neq in D1. rewrite D1. split; [reflexivity|]. split; [reflexivity|].
  intros p P1 P2. rewrite Q. apply String.eqb_neq in P1, P2. rewrite P1, P2. reflexivity.
Qed.
Lemma half i o t fl gofmt partial fs0 src out types f st fs : i <> "" -> o <> "" -> t <> "" -> fl_types fl = true -> fs0 i = Some src ->
  generate fl src = Some (out, Some types) -> fs0 (outTmp o) = None -> fs0 (toutTmp t) = None -> t <> o -> t <> outTmp o -> toutTmp t <> o ->
  gofmt out = Some f -> gofmt types = None ->
  gen_run true i o t fl gofmt partial fs0 (Done st) fs -> st = Panicked /\ fs o = Some f /\ fs t = fs0 t.
Proof.
  intros Hi Ho Ht Hf E G N1 N2 D1 D2 D3 F1 F2 (pieces & Hc & R). assert (W : with_types t = true) by (unfold with_types; apply String.eqb_neq in Ht; rewrite Ht; reflexivity).
  pose proof (always_reach _ _ _ _ R (generated i o t fl gofmt partial pieces fs0 Hi Ho (eq_trans Hf (eq_sym W)) Hc src out (Some types) E G N1 (fun _ => conj N2 (conj D1 (conj D2 D3))))) as Q.
  cbn in Q. rewrite F1, F2 in Q. destruct Q as [-> Q]. split; [reflexivity|]. rewrite !Q, String.eqb_refl. apply String.eqb_neq in D1. rewrite D1. split; reflexivity.
Qed.
Lemma out_unformatted i o t fl gofmt partial fs0 src out types st fs : i <> "" -> o <> "" -> t <> "" -> fl_types fl = true -> fs0 i = Some src ->
  generate fl src = Some (out, Some types) -> fs0 (outTmp o) = None -> fs0 (toutTmp t) = None -> t <> o -> t <> outTmp o -> toutTmp t <> o ->
  gofmt out = None ->
  gen_run true i o t fl gofmt partial fs0 (Done st) fs -> st = Panicked /\ forall p, fs p = fs0 p.
Proof.
  intros Hi Ho Ht Hf E G N1 N2 D1 D2 D3 F1 (pieces & Hc & R). assert (W : with_types t = true) by (unfold with_types; apply String.eqb_neq in Ht; rewrite Ht; reflexivity).
  pose proof (always_reach _ _ _ _ R (generated i o t fl gofmt partial pieces fs0 Hi Ho (eq_trans Hf (eq_sym W)) Hc src out (Some types) E G N1 (fun _ => conj N2 (conj D1 (conj D2 D3))))) as Q.
  cbn in Q. rewrite F1 in Q. exact Q.
Qed.
Lemma stale_out_run strict i o t fl gofmt partial fs0 c fs x : fs0 (outTmp o) = Some x -> gen_run strict i o t fl gofmt partial fs0 c fs ->
  fs = fs0 /\ c <> Done Success.
Proof. intros H (pieces & Hc & R). pose proof (always_reach _ _ _ _ R (stale_out strict i o t fl gofmt partial pieces fs0 x H)) as [S F]. split; [exact S|]. intros ->. exact F. Qed.
Lemma stale_types_run strict i o t fl gofmt partial fs0 c fs x : t <> "" -> fs0 (toutTmp t) = Some x -> gen_run strict i o t fl gofmt partial fs0 c fs ->
  (forall p, p <> outTmp o -> fs p = fs0 p) /\ c <> Done Success.
Proof.
  intros Ht H (pieces & Hc & R). assert (W : with_types t = true) by (unfold with_types; apply String.eqb_neq in Ht; rewrite Ht; reflexivity).
  pose proof (always_reach _ _ _ _ R (stale_types strict i o t fl gofmt partial pieces fs0 x W H)) as [S F]. split; [|intros ->; exact F].
  intros p Np. apply S. intros [X|[]]. congruence.
Qed.
(** Killed while the temporary output file exists: no later run can do anything. *)
Lemma killed_then i o t fl gofmt partial fs0 c fs x strict i' t' fl' gofmt' partial' c' fs' :
  gen_run false i o t fl gofmt partial fs0 c fs -> fs (outTmp o) = Some x ->
  gen_run strict i' o t' fl' gofmt' partial' fs c' fs' -> fs' = fs /\ c' <> Done Success.
Proof. intros _ H R. eapply stale_out_run; eassumption. Qed.

(** A constant gofmt rejects, in the types file only. *)
Definition half_src : string := "struct s { int a; }; const bad = 09;".
Definition half_fs : fsys := fun p => if String.eqb p "prot.x" then Some half_src else None.
(** Stands for a gofmt that rejects only malformed octal numbers such as 09. *)
Fixpoint has (w s : string) : bool := match strip w s with Some _ => true | None => match s with String _ r => has w r | EmptyString => false end end.
Definition gofmt09 (s : string) : option string := if has " 09" s then None else Some s.
Lemma half_ex : exists out types f, generate (mkFlags "p" true false "") half_src = Some (out, Some types) /\ gofmt09 out = Some f /\ gofmt09 types = None.
Proof. eexists _, _, _. split; [vm_compute; reflexivity|]. split; vm_compute; reflexivity. Qed.

Lemma both_formatted_refuted : ~ (forall i o t fl gofmt partial fs0 strict c fs p, gen_run strict i o t fl gofmt partial fs0 c fs ->
  ~ In p (tmps o t) -> fs p <> fs0 p ->
  exists src out ty, fs0 i = Some src /\ generate fl src = Some (out, ty) /\ gofmt out <> None /\ forall types, ty = Some types -> gofmt types <> None).
Proof.
  intros H. destruct (gen_ends "prot.x" "xdr.go" "types.go" (mkFlags "p" true false "") gofmt09 (fun _ => []) half_fs) as (st & fs & R).
  destruct half_ex as (out & types & f & G & F1 & F2).
  assert (Q : st = Panicked /\ fs "xdr.go" = Some f /\ fs "types.go" = half_fs "types.go").
  { apply (half "prot.x" "xdr.go" "types.go" (mkFlags "p" true false "") gofmt09 (fun _ => []) half_fs half_src out types f st fs); try discriminate; try reflexivity; assumption. }
  destruct Q as (_ & Q & _).
  destruct (H _ _ _ _ _ _ _ _ _ _ "xdr.go" R) as (src & out' & ty & E & G' & _ & K).
  - intros X. repeat (destruct X as [X|X]; [discriminate|]). exact X.
  - rewrite Q. discriminate.
  - assert (src = half_src) by (unfold half_fs in E; cbn in E; congruence). subst src. apply (K types); [congruence|exact F2].
Qed.
