(** Which calls of a test are assertions, for every program: only those of package assert of testify, with the test's own t (C77). *)
From Coq Require Import String List Bool ZArith.
From Verif Require Import GoLex GoAst GoPkg Bytes XdrLib Types Interp GoSem GenFuzz SrcAst TestAst.
Import ListNotations.
Open Scope string_scope.

Section Q.
Context (pkg : string) (imports : list string) (Z0 : string -> gor val) (K : string -> option Z) (X : string -> xst -> val -> gor (xst * val)).
(** What an assertion [assert.g(t, rest)] records: whether it holds. *)
Inductive holds (st : tst) : string -> list tx -> bool -> Prop :=
  | h_noerror e o : gval pkg K st e = GRet (OErr o) -> holds st "NoError" [TX e] (match o with None => true | Some _ => false end)
  | h_error e o : gval pkg K st e = GRet (OErr o) -> holds st "Error" [TX e] (match o with None => false | Some _ => true end)
  | h_equal a b x y : gval pkg K st a = GRet (OVal x) -> gval pkg K st b = GRet (OVal y) -> holds st "Equal" [TX a; TX b] (deep_equal x y).

Lemma store_asserts st x v st' : store st x v = GRet st' -> asserts st' = asserts st.
Proof. unfold store. destruct (lookup x (vars st)) as [[ty ?]|]; [|discriminate]. intros [= <-]. reflexivity. Qed.
Lemma asserted st f args st' r : tcall pkg imports Z0 K X st f args = GRet (st', r) ->
  asserts st' = asserts st \/
  exists g t rest b, f = ESel (EId "assert") g /\ args = TX (EId t) :: rest /\ imported imports st "assert" assert_path = true /\ testing st t "T" = true /\ holds st g rest b /\ asserts st' = (asserts st ++ [b])%list.
Proof.
  intros H. unfold tcall, check in H. remember (gval pkg K) as G eqn:EG. unfold gbind in H.
  repeat (match type of H with (match ?x with _ => _ end) = _ => destruct x eqn:? end; try discriminate H);
    repeat match goal with Q : store _ _ _ = GRet _ |- _ => apply store_asserts in Q end; injection H as <- <-; try (left; cbn [asserts]; congruence);
    repeat match goal with Q : (_ && _)%bool = true |- _ => apply andb_prop in Q; destruct Q end;
    repeat match goal with Q : String.eqb _ _ = true |- _ => apply String.eqb_eq in Q end; subst; right; do 4 eexists;
    (split; [reflexivity|]; split; [reflexivity|]; split; [assumption|]; split; [assumption|]; split; [|reflexivity]).
  all: first [eapply h_noerror; eassumption|eapply h_error; eassumption|eapply h_equal; eassumption].
Qed.
End Q.
