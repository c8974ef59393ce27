(** Model of /repo/main.go: what the generator does to the file system, with I/O errors and
    with the possibility of being killed between any two system calls.
    Simplifications: one run at a time; a path is a string naming one file; the deferred
    os.Remove and the Fprintf to the temporary files ignore errors, as in the code. *)
From Verif Require Import GoLex XLex Gram GParse Emit.
Open Scope string_scope.
Open Scope list_scope.

Definition fsys : Type := string -> option string.
Definition fset (fs : fsys) (p : string) (c : option string) : fsys := fun q => if String.eqb q p then c else fs q.

Inductive act : Type :=
| ARead (p : string)                  (* ioutil.ReadFile *)
| ACreate (p : string)                (* os.OpenFile with O_EXCL|O_CREATE *)
| AAppend (p s : string)              (* write(2) at the end of an open file *)
| ATrunc (p : string)                 (* the open of ioutil.WriteFile: O_CREATE|O_TRUNC *)
| ARemove (p : string).               (* os.Remove *)
Inductive res : Type := ROk (s : string) | RErr.

(** One system call; [strict]: no I/O errors beyond those the state forces. *)
Inductive eff (strict : bool) (fs : fsys) : act -> res -> fsys -> Prop :=
| e_read p c : fs p = Some c -> eff strict fs (ARead p) (ROk c) fs
| e_read_none p : fs p = None -> eff strict fs (ARead p) RErr fs
| e_create p : fs p = None -> eff strict fs (ACreate p) (ROk "") (fset fs p (Some ""))
| e_create_exists p c : fs p = Some c -> eff strict fs (ACreate p) RErr fs
| e_append p s c : fs p = Some c -> eff strict fs (AAppend p s) (ROk "") (fset fs p (Some (c +++ s)))
| e_append_gone p s : fs p = None -> eff strict fs (AAppend p s) (ROk "") fs
| e_trunc p : eff strict fs (ATrunc p) (ROk "") (fset fs p (Some ""))
| e_remove p : eff strict fs (ARemove p) (ROk "") (fset fs p None)
| e_read_err p : strict = false -> eff strict fs (ARead p) RErr fs
| e_create_err p : strict = false -> eff strict fs (ACreate p) RErr fs
| e_append_err p s1 s2 c : strict = false -> fs p = Some c -> eff strict fs (AAppend p (s1 +++ s2)) RErr (fset fs p (Some (c +++ s1)))
| e_trunc_err p : strict = false -> eff strict fs (ATrunc p) RErr fs
| e_remove_err p : strict = false -> eff strict fs (ARemove p) RErr fs.

Inductive status : Type := Success | Usage | Panicked.
(** What is left to do. *)
Inductive cmd : Type :=
| Done (st : status)
| Do (a : act) (k : res -> cmd).
Inductive reach (strict : bool) : cmd * fsys -> cmd * fsys -> Prop :=
| r_here c : reach strict c c
| r_step a k fs r fs' c : eff strict fs a r fs' -> reach strict (k r, fs') c -> reach strict (Do a k, fs) c.

Section Main.
(** The command line: -i, -o, -t ("" when absent) and the rest (main.go:13-19). *)
Variables (inputFile outputFile typesFile : string) (fl : flags).
(** go/format.Source; [None] for an error. *)
Variable gofmt : string -> option string.
(** What had been written when the parser panicked (syntax error, unknown token, or emission). *)
Variable partial : string -> list write.
(** The writes of a parse that succeeds, in the pieces in which out.go makes them. *)
Variable pieces : string -> list write.

Definition outTmp : string := outputFile +++ ".tmp".
Definition toutTmp : string := typesFile +++ ".tmp".
Definition with_types : bool := negb (String.eqb typesFile "").

(** The deferred removals, last registered first (main.go:54, 69). *)
Fixpoint defers (l : list string) (st : status) : cmd :=
  match l with [] => Done st | p :: l => Do (ARemove p) (fun _ => defers l st) end.
(** Fprintf to [out] or [tout]; errors ignored. *)
Fixpoint writes (ws : list write) (k : cmd) : cmd :=
  match ws with
  | [] => k
  | WOut s :: ws => Do (AAppend outTmp s) (fun _ => writes ws k)
  | WTout s :: ws => Do (AAppend (if with_types then toutTmp else outTmp) s) (fun _ => writes ws k)
  end.
(** main.go:87-102; [fail] when it panics. *)
Definition refmt (infile outfile : string) (fail k : cmd) : cmd :=
  Do (ARead infile) (fun r => match r with
    | RErr => fail
    | ROk buf => match gofmt buf with
                 | None => fail
                 | Some txt => Do (ATrunc outfile) (fun r => match r with
                     | RErr => fail
                     | ROk _ => Do (AAppend outfile txt) (fun r => match r with RErr => fail | ROk _ => k end)
                     end)
                 end
    end).
(** main.go:58 *)
Definition import_line : string := "import " +++ DQ +++ "github.com/zeldovich/go-rpcgen/xdr" +++ DQ +++ NL.
(** xdrParse (main.go:77): all writes and the end, or some writes and a panic. *)
Definition xdrParse (src : string) (fail k : cmd) : cmd :=
  match front src with
  | Some ds => match emit_list (emit fl) ds with Some _ => writes (pieces src) k | None => writes (partial src) fail end
  | None => writes (partial src) fail
  end.
(** main.go:24-85 *)
Definition main : cmd :=
  if String.eqb inputFile "" then Done Usage
  else if String.eqb outputFile "" then Done Usage
  else Do (ARead inputFile) (fun r => match r with
    | RErr => Done Panicked
    | ROk src => Do (ACreate outTmp) (fun r => match r with
      | RErr => Done Panicked
      | ROk _ =>
        Do (AAppend outTmp (tout_header fl)) (fun _ => Do (AAppend outTmp import_line) (fun _ =>
        let body (ds : list string) := xdrParse src (defers ds Panicked)
          (refmt outTmp outputFile (defers ds Panicked)
             (if with_types then refmt toutTmp typesFile (defers ds Panicked) (defers ds Success) else defers ds Success)) in
        if with_types then
          Do (ACreate toutTmp) (fun r => match r with
            | RErr => defers [outTmp] Panicked
            | ROk _ => Do (AAppend toutTmp (tout_header fl)) (fun _ => body [toutTmp; outTmp])
            end)
        else body [outTmp]))
      end)
    end).
End Main.

(** The text written is that of Emit.v, in whatever pieces. *)
Definition cut_up (fl : flags) (pieces : string -> list write) : Prop :=
  forall src ds ws, front src = Some ds -> emit_list (emit fl) ds = Some ws -> eqw (pieces src) ws.
(** A run, from its start. *)
Definition gen_run (strict : bool) (i o t : string) (fl : flags) (gofmt : string -> option string) (partial : string -> list write)
    (fs : fsys) (c : cmd) (fs' : fsys) : Prop := exists pieces, cut_up fl pieces /\ reach strict (main i o t fl gofmt partial pieces, fs) (c, fs').
