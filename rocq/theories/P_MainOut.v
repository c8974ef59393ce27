(** C68: the text of out.go, run by the rules of Go, writes what Emit.v says. *)
From Verif Require Import GoLex XLex Gram GParse Emit GEmitP RepoText SrcAst MainText MainAst MainProg MainTextP MainSem MainOut MainEmit MainGen.
Open Scope string_scope.
Open Scope list_scope.

(** The syntax trees that are run are the files /repo/{out,scan,main}.go. *)
Theorem C68_text : is_main_source out_go out_prog /\ is_main_source scan_go scan_prog /\ is_main_source main_go main_prog /\
  main_pkg = mf_decls out_prog ++ mf_decls scan_prog ++ mf_decls main_prog.
Proof. exact (conj out_source (conj scan_source (conj main_source eq_refl))). Qed.
Print Assumptions C68_text.

(** out.go:34-345.  The methods goType and goXdr of every type: called on the value xdr.y builds for it, they return the text of the model and
    change nothing, and panic exactly when the model has no text.  [ok_spec], [ok_decl]: names are not empty and do not start outside ASCII. *)
Theorem C68_types : forall W consts (ext : string -> list uv -> mm W -> mres W (list uv)),
  let callm n := ucallm ext (urun main_pkgs consts main_pkg ext n) in
  (forall t, ok_spec t = true -> exists k, forall n, k <= n ->
     (forall m, callm n (uspec t) "goType" [] m = pure1 m (goType t)) /\ (forall p m, callm n (uspec t) "goXdr" [UStr p] m = pure1 m (goXdr t p))) /\
  (forall d, ok_decl d = true -> exists k, forall n, k <= n ->
     forall m, urun main_pkgs consts main_pkg ext n "declToNameGotype" [udecl d] m = pure m (nameGotype d)).
Proof. exact (fun W consts ext => conj (proj1 (all_good consts ext)) (fun d H => match proj2 (proj2 (all_good consts ext)) d H with ex_intro _ k K => ex_intro _ k (fun n L => proj1 (K n L)) end)). Qed.
Print Assumptions C68_types.

(** out.go:380-529.  The call in the action of a definition writes what the model says ([eqw]: the same text in each file), and panics exactly
    when the model does.  [play]: the writes done, in order, by whatever the writers behind out and tout do. *)
Theorem C68_emit : forall W consts (ext : string -> list uv -> mm W -> mres W (list uv)) fl ko kt pc pu log,
  (forall k s m, ext "write" [UObj k; UStr s] m = MOk (put log k s m) []) ->
  forall d, ok_defn d = true -> exists k, forall n, k <= n -> forall m, st fl ko kt pc pu m ->
  let r := urun main_pkgs consts main_pkg ext n (fst (emit_call d)) (snd (emit_call d)) m in
  match emit fl d with
  | Some ws => exists ws0, r = MOk (play ko kt log ws0 m) [] /\ eqw ws0 ws
  | None => exists ws0, r = MPanic (play ko kt log ws0 m)
  end.
Proof. exact (fun W => emit_enough (W := W)). Qed.
Print Assumptions C68_emit.

(** All actions of a source text, in the state in which main.go:77 calls the parser ([ready]: the headers are written): the two files get the
    texts of [generate] and no other file changes; if the model says the generator panics, so do they.  The names of every source text are fit. *)
Theorem C68_generate : forall consts ext fl src ds ko kt pc pu, front src = Some ds ->
  (forall k s m, ext "write" [UObj k; UStr s] m = MOk (put append_to k s m) []) ->
  exists k, forall n, k <= n -> forall m, ready fl ko kt pc pu m ->
  match generate fl src with
  | Some (o, t) => exists m', actions consts ext n ds m = MOk m' tt /\ mm_world m' ko = o /\
      match t with Some t => mm_world m' kt = t | None => ko = kt end /\ (forall j, j <> ko -> j <> kt -> mm_world m' j = mm_world m j)
  | None => exists m', actions consts ext n ds m = MPanic m' /\ (forall j, j <> ko -> j <> kt -> mm_world m' j = mm_world m j)
  end.
Proof. exact generate_text. Qed.
Print Assumptions C68_generate.

(** The text of out.go run on /repo/rfc1057/prot.x with the flags of the Makefile; it makes the committed files. *)
Example C68_ex : exists ds m', front rfc1057_prot_x = Some ds /\ ready (make_flags "rfc1057") 0 1 0 1 ex_ready /\
  actions (fun _ => None) ex_write 12 ds ex_ready = MOk m' tt /\ same_go (mm_world m' 0) rfc1057_xdr_go /\ same_go (mm_world m' 1) rfc1057_types_go.
Proof. exact ex_actions. Qed.
Example C68_ex_ext : forall k s m, ex_write "write" [UObj k; UStr s] m = MOk (put append_to k s m) [].
Proof. reflexivity. Qed.
(** A panic of the text. *)
Example C68_ex_panic : exists ds m', front "const n = 1; typedef double d;" = Some ds /\ actions (fun _ => None) ex_write 12 ds ex_ready = MPanic m'.
Proof. eexists. eexists. split; [vm_compute; reflexivity|]. vm_compute. reflexivity. Qed.
