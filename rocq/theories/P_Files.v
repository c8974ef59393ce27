(** The generator's files (C55). *)
From Verif Require Import GoLex XLex Gram GParse Emit GEmitP FileSys FileSysP FileSysEx.
Open Scope string_scope.
Open Scope list_scope.

(** At every point of every run, with any I/O errors: only the temporary files differ from the
    start, unless the whole input parsed, everything was emitted and a text was formatted; then
    at most the output, and after it the types file, differ too. *)
Theorem C55_order : forall i o t fl gofmt partial fs0 strict c fs, gen_run strict i o t fl gofmt partial fs0 c fs ->
  (forall p, ~ In p (tmps o t) -> fs p = fs0 p) \/
  ((exists src out ty, fs0 i = Some src /\ generate fl src = Some (out, ty)) /\ (exists txt f, gofmt txt = Some f) /\
   ((forall p, ~ In p (o :: tmps o t) -> fs p = fs0 p) \/ ((forall p, ~ In p (t :: o :: tmps o t) -> fs p = fs0 p) /\ t <> ""))).
Proof. exact order. Qed.
Print Assumptions C55_order.
(** Whatever goes wrong and wherever the run is killed, a file other than the temporary ones
    holds what it held or the beginning of formatted code. *)
Theorem C55_contents : forall i o t fl gofmt partial fs0 strict c fs p, gen_run strict i o t fl gofmt partial fs0 c fs -> ~ In p (tmps o t) ->
  fs p = fs0 p \/ exists txt a b, gofmt txt = Some (a +++ b) /\ fs p = Some a.
Proof. exact contents. Qed.
Print Assumptions C55_contents.
(** A parse or emission failure: no file but the temporary ones ever differs, whatever goes
    wrong; and they are removed when removing works. *)
Theorem C55_failure : forall i o t fl gofmt partial fs0 strict c fs src, fs0 i = Some src -> generate fl src = None ->
  gen_run strict i o t fl gofmt partial fs0 c fs -> (forall p, ~ In p (tmps o t) -> fs p = fs0 p) /\ c <> Done Success.
Proof. exact failing. Qed.
Print Assumptions C55_failure.
Theorem C55_failure_cleans_up : forall i o t fl gofmt partial fs0 st fs src, i <> "" -> o <> "" -> fl_types fl = with_types t ->
  fs0 i = Some src -> generate fl src = None ->
  gen_run true i o t fl gofmt partial fs0 (Done st) fs -> st <> Success /\ forall p, fs p = fs0 p.
Proof. exact failing_restores. Qed.
Print Assumptions C55_failure_cleans_up.
Theorem C55_unformatted_cleans_up : forall i o t fl gofmt partial fs0 src out types st fs, i <> "" -> o <> "" -> t <> "" -> fl_types fl = true -> fs0 i = Some src ->
  generate fl src = Some (out, Some types) -> fs0 (outTmp o) = None -> fs0 (toutTmp t) = None -> t <> o -> t <> outTmp o -> toutTmp t <> o ->
  gofmt out = None ->
  gen_run true i o t fl gofmt partial fs0 (Done st) fs -> st = Panicked /\ forall p, fs p = fs0 p.
Proof. exact out_unformatted. Qed.
Print Assumptions C55_unformatted_cleans_up.
(** Without I/O errors the output files become the formatted texts and nothing else changes. *)
Theorem C55_success : forall i o t fl gofmt partial fs0 src out types f g st fs, i <> "" -> o <> "" -> t <> "" -> fl_types fl = true -> fs0 i = Some src ->
  generate fl src = Some (out, Some types) -> fs0 (outTmp o) = None -> fs0 (toutTmp t) = None -> t <> o -> t <> outTmp o -> toutTmp t <> o ->
  gofmt out = Some f -> gofmt types = Some g ->
  gen_run true i o t fl gofmt partial fs0 (Done st) fs -> st = Success /\ fs o = Some f /\ fs t = Some g /\ forall p, p <> o -> p <> t -> fs p = fs0 p.
Proof. exact success. Qed.
Print Assumptions C55_success.
Theorem C55_runs_end : forall i o t fl gofmt partial fs0, exists st fs, gen_run true i o t fl gofmt partial fs0 (Done st) fs.
Proof. exact gen_ends. Qed.
Print Assumptions C55_runs_end.
(** A temporary file that was left behind. *)
Theorem C55_stale_output : forall strict i o t fl gofmt partial fs0 c fs x, fs0 (outTmp o) = Some x -> gen_run strict i o t fl gofmt partial fs0 c fs ->
  fs = fs0 /\ c <> Done Success.
Proof. exact stale_out_run. Qed.
Print Assumptions C55_stale_output.
Theorem C55_stale_types : forall strict i o t fl gofmt partial fs0 c fs x, t <> "" -> fs0 (toutTmp t) = Some x -> gen_run strict i o t fl gofmt partial fs0 c fs ->
  (forall p, p <> outTmp o -> fs p = fs0 p) /\ c <> Done Success.
Proof. exact stale_types_run. Qed.
Print Assumptions C55_stale_types.
Theorem C55_killed : forall i o t fl gofmt partial fs0 c fs x strict i' t' fl' gofmt' partial' c' fs',
  gen_run false i o t fl gofmt partial fs0 c fs -> fs (outTmp o) = Some x ->
  gen_run strict i' o t' fl' gofmt' partial' fs c' fs' -> fs' = fs /\ c' <> Done Success.
Proof. exact killed_then. Qed.
Print Assumptions C55_killed.
(** "Written only after the emitted code has been formatted" is per file: when only the types
    file cannot be formatted, the output file has been replaced already. *)
Theorem C55_half_written : forall i o t fl gofmt partial fs0 src out types f st fs, i <> "" -> o <> "" -> t <> "" -> fl_types fl = true -> fs0 i = Some src ->
  generate fl src = Some (out, Some types) -> fs0 (outTmp o) = None -> fs0 (toutTmp t) = None -> t <> o -> t <> outTmp o -> toutTmp t <> o ->
  gofmt out = Some f -> gofmt types = None ->
  gen_run true i o t fl gofmt partial fs0 (Done st) fs -> st = Panicked /\ fs o = Some f /\ fs t = fs0 t.
Proof. exact half. Qed.
Print Assumptions C55_half_written.
(** The constant 09 is accepted by the generator's scanner but is not Go. *)
Example C55_half_ex : exists f st fs, gen_run true "prot.x" "xdr.go" "types.go" (mkFlags "p" true false "") gofmt09 (fun _ => []) half_fs (Done st) fs /\
  st = Panicked /\ fs "xdr.go" = Some f /\ fs "types.go" = None.
Proof.
  destruct (gen_ends "prot.x" "xdr.go" "types.go" (mkFlags "p" true false "") gofmt09 (fun _ => []) half_fs) as (st & fs & R).
  destruct half_ex as (out & types & f & G & F1 & F2). exists f, st, fs. split; [exact R|].
  apply (C55_half_written "prot.x" "xdr.go" "types.go" (mkFlags "p" true false "") gofmt09 (fun _ => []) half_fs half_src out types f st fs);
    try discriminate; try reflexivity; assumption.
Qed.
Example C55_fail_ex : exists st fs, gen_run true "prot.x" "xdr.go" "types.go" (mkFlags "p" true false "") Some (fun _ => [WOut "partial"])
    (fun p => if String.eqb p "prot.x" then Some "struct s { double d; };" else if String.eqb p "xdr.go" then Some "old" else None) (Done st) fs /\
  st <> Success /\ fs "xdr.go" = Some "old" /\ fs "xdr.go.tmp" = None.
Proof.
  destruct (gen_ends "prot.x" "xdr.go" "types.go" (mkFlags "p" true false "") Some (fun _ => [WOut "partial"])
    (fun p => if String.eqb p "prot.x" then Some "struct s { double d; };" else if String.eqb p "xdr.go" then Some "old" else None)) as (st & fs & R).
  exists st, fs. split; [exact R|]. eapply C55_failure_cleans_up with (src := "struct s { double d; };") in R; try discriminate; try reflexivity.
  destruct R as [A B]. split; [exact A|]. rewrite !B. split; reflexivity.
Qed.
(** A run killed after creating the temporary file. *)
Example C55_killed_ex : exists c fs x, gen_run false "prot.x" "xdr.go" "types.go" (mkFlags "p" true false "") Some (fun _ => []) half_fs c fs /\ fs (outTmp "xdr.go") = Some x.
Proof.
  eexists _, _, _. split; [exists (whole (mkFlags "p" true false "")); split; [apply whole_cut|]; eapply r_step; [eapply e_read; reflexivity|]; cbn; eapply r_step; [eapply e_create; reflexivity|]; cbn; apply r_here|]. reflexivity.
Qed.
(** Read as a claim about both files together, the first sentence of C55 is false. *)
Theorem C55_both_formatted_refuted : ~ (forall i o t fl gofmt partial fs0 strict c fs p, gen_run strict i o t fl gofmt partial fs0 c fs ->
  ~ In p (tmps o t) -> fs p <> fs0 p ->
  exists src out ty, fs0 i = Some src /\ generate fl src = Some (out, ty) /\ gofmt out <> None /\ forall types, ty = Some types -> gofmt types <> None).
Proof. exact both_formatted_refuted. Qed.
Print Assumptions C55_both_formatted_refuted.
