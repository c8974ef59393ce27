(** Vocabulary of the codec property statements: the fuel of Interp.v quantified away.
    [xdr_mono] and [xdr_det] (Total.v) make these deterministic big-step relations. *)
From Verif Require Import Bytes XdrLib Types Interp Spec.
Open Scope string_scope.
Open Scope Z_scope.
Open Scope list_scope.

(** The generated method for [t], run on state [s] and value [v], returns with state [s']
    and value [v']. *)
Definition runs (E : env) (t : cty) (s : xst) (v : val) (s' : xst) (v' : val) : Prop :=
  exists n, xdr n E t s v = Ret (s', v').

(** /repo/xdr/helper.go:3-7 returns [(b, e)]. *)
Definition Encode (E : env) (t : cty) (v : val) (b : list byte) (e : option xerr) : Prop :=
  exists n, EncodeBuf n E t v = Ret (b, e).

(** /repo/xdr/helper.go:9-13 on a target holding [v] returns [e], leaving [v'] in it. *)
Definition Decode (E : env) (t : cty) (b : list byte) (v : val) (e : option xerr) (v' : val) : Prop :=
  exists n, DecodeBuf n E t b v = Ret (e, v').

(** The same with the number of bytes left over visible, for a decode without error. *)
Definition DecodeRest (E : env) (t : cty) (b : list byte) (v : val) (rest : list byte) (v' : val)
  : Prop := runs E t (MakeReader b) v (MakeReader rest) v'.

(** [z] is the value of a freshly declared variable of type [t]. *)
Definition fresh (E : env) (t : cty) (z : val) : Prop := exists n, zero n E t = Some z.

(** ** Sequences of codec calls on one state *)
Inductive call : Type :=
| KBool (b : bool) | KU32 (z : Z) | KS32 (z : Z) | KU64 (z : Z) | KS64 (z : Z)
| KArray (bs : list byte) | KVarArray (max : Z) (o : option (list byte))
| KString (max : Z) (bs : list byte) | KSetSize (arraysz len : Z)
| KGen (t : cty) (v : val).

Definition run_call (n : nat) (E : env) (c : call) (s : xst) : outcome (xst * call) :=
  match c with
  | KBool b => let '(s', b') := XdrBool s b in Ret (s', KBool b')
  | KU32 z => let '(s', z') := XdrU32 s z in Ret (s', KU32 z')
  | KS32 z => let '(s', z') := XdrS32 s z in Ret (s', KS32 z')
  | KU64 z => let '(s', z') := XdrU64 s z in Ret (s', KU64 z')
  | KS64 z => let '(s', z') := XdrS64 s z in Ret (s', KS64 z')
  | KArray bs => let '(s', bs') := XdrArray s bs in Ret (s', KArray bs')
  | KVarArray m o => let '(s', o') := XdrVarArray s m o in Ret (s', KVarArray m o')
  | KString m bs => let '(s', bs') := XdrString s m bs in Ret (s', KString m bs')
  | KSetSize a l => let '(s', a') := EncodingSetSize s a l in Ret (s', KSetSize a' l)
  | KGen t v => '(s', v') <- xdr n E t s v ;; Ret (s', KGen t v')
  end.

Fixpoint run_calls (n : nat) (E : env) (cs : list call) (s : xst) : outcome (xst * list call) :=
  match cs with
  | [] => Ret (s, [])
  | c :: cs =>
      '(s1, c1) <- run_call n E c s ;;
      '(s2, cs2) <- run_calls n E cs s1 ;;
      Ret (s2, c1 :: cs2)
  end.

(** A sequence of generated methods applied one after another. *)
Inductive runs_seq (E : env) : list cty -> xst -> list val -> xst -> list val -> Prop :=
| RS_nil s : runs_seq E [] s [] s []
| RS_cons t ts s v vs s1 v1 s2 vs2 :
    runs E t s v s1 v1 -> runs_seq E ts s1 vs s2 vs2 ->
    runs_seq E (t :: ts) s (v :: vs) s2 (v1 :: vs2).

(** The arm a union's declaration assigns to discriminant [d] (RFC 4506, 4.15); [None]:
    the declaration does not cover it. *)
Inductive selects (d : Z) (arms : list (list Z * option (string * cty)))
    (def : option (option (string * cty))) : option (option (string * cty)) -> Prop :=
| Sel_case pre ls a post :
    arms = pre ++ (ls, a) :: post -> In d ls -> (forall ls' a', In (ls', a') pre -> ~ In d ls') ->
    selects d arms def (Some a)
| Sel_default : (forall ls a, In (ls, a) arms -> ~ In d ls) -> selects d arms def def.
