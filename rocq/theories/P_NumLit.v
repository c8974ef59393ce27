(** C78: integer literals and the constants made of them.

    [go_int s z]: [s] is an integer literal of value [z] by the grammar of the Go specification;
    [xdr_int s z]: a constant of RFC 4506, 6.2 (9), without minus sign (NumLit.v).
    [num_val]: how the model of the generated code reads a literal (GoSem.v); [cval G n]: the value
    of the constant [n] of the package [G].  [generated], [compiles]: as in P_Caps.v.
    [means ds n z]: by the definitions [ds], the name [n] of the package stands for [z] (NumLitC.v).
    [stands ds s z]: so does what a specification may write, [s] (NumLitX.v).
    [xval], [xbound], [xlabels], [el_dt]: the meaning of a specification (GElab.v), used by C48. *)
From Coq Require Import String List ZArith.
From Verif Require Import GoLex XLex Gram GParse Emit GoTop GoRes GoPkg GoWf XdrLib Types GoAst GoSem GElab GoTypeG GoTypeX GoCap NumLit NumLitC NumLitX.
Import ListNotations.
Open Scope string_scope.
Open Scope list_scope.
Open Scope Z_scope.

(** A literal is read as the Go specification says, and nothing else is read. *)
Theorem C78_go : forall s z, head_is is_digit s = true -> (num_val s = Some z <-> go_int s z).
Proof. exact num_val_go. Qed.
Print Assumptions C78_go.
Theorem C78_unique : forall s z z', go_int s z -> go_int s z' -> z = z'.
Proof. exact go_int_fun. Qed.
Print Assumptions C78_unique.
Example C78_go_ex : go_int "0x1F" 31 /\ go_int "010" 8 /\ go_int "1_000" 1000 /\ go_int "0b101" 5 /\ go_int "0o17" 15 /\
  (forall z, ~ go_int "08" z) /\ (forall z, ~ go_int "1__0" z) /\ (forall z, ~ go_int "0x" z).
Proof.
  repeat split; try (intros z H; apply num_val_go in H; [vm_compute in H; discriminate H|reflexivity]); apply num_val_go; reflexivity.
Qed.

(** The constants RFC 4506 has have the value it gives them. *)
Theorem C78_xdr : forall s z, xdr_int s z -> head_is is_digit s = true /\ num_val s = Some z.
Proof. exact xdr_num. Qed.
Print Assumptions C78_xdr.
Theorem C78_xdr_go : forall s z, xdr_int s z -> go_int s z.
Proof. exact xdr_go. Qed.
Print Assumptions C78_xdr_go.
Example C78_xdr_ex : xdr_int "0x20000000" 536870912 /\ xdr_int "0777" 511 /\ xdr_int "100003" 100003.
Proof.
  split; [|split].
  - change 536870912 with (value 16 [2; 0; 0; 0; 0; 0; 0; 0]). apply Xi_hex. repeat first [apply Nu_last; split; [cbn; tauto|reflexivity] | apply Nu_next; [split; [cbn; tauto|reflexivity]|]].
  - change 511 with (value 8 [7; 7; 7]). apply Xi_octal. repeat first [apply Nu_last; split; [cbn; tauto|reflexivity] | apply Nu_next; [split; [cbn; tauto|reflexivity]|]].
  - change 100003 with (value 10 [1; 0; 0; 0; 0; 3]). apply Xi_decimal; [discriminate|]. repeat first [apply Nu_last; split; [cbn; tauto|reflexivity] | apply Nu_next; [split; [cbn; tauto|reflexivity]|]].
Qed.

(** Every constant of a generated package that compiles has the value the specification gives it,
    through however many other constants, and no other. *)
Theorem C78_constants : forall fl src ds P, generated fl src ds P -> compiles P -> forall n z, means ds n z <-> cval (gp_pkg P) n = Some z.
Proof. exact text_consts. Qed.
Print Assumptions C78_constants.
Definition c78_src : string :=
  "const n = 0x10; enum e { A = 010, B = A, k = B }; typedef opaque f[n]; program p { version v { void nul(void) = 0; } = 3; } = 0x20000000;".
Example C78_constants_ex : exists ds P, generated (make_flags "q") c78_src ds P /\ compiles P /\ means ds "n" 16 /\ means ds "A" 8 /\ means ds "K" 8 /\ means ds "P" 536870912 /\ (forall z, ~ means ds "k" z).
Proof.
  destruct (generated_ex (make_flags "q") c78_src) as (ds & P & H & Fr & Pr); [reflexivity|vm_compute; reflexivity|]. exists ds, P. split; [exact H|].
  assert (C : compiles P). { exists 6%nat. clear H. vm_compute in Fr. apply GoText.some_eq in Fr. subst ds. vm_compute in Pr. apply GoText.some_eq in Pr. subst P. vm_compute. reflexivity. }
  split; [exact C|].
  assert (V : map (cval (gp_pkg P)) ["n"; "A"; "K"; "P"; "k"] = [Some 16; Some 8; Some 8; Some 536870912; None]).
  { clear H C. vm_compute in Fr. apply GoText.some_eq in Fr. subst ds. vm_compute in Pr. apply GoText.some_eq in Pr. subst P. vm_compute. reflexivity. }
  cbn [map] in V. injection V as V1 V2 V3 V4 V5. pose proof (text_consts _ _ _ _ H C) as T. repeat split; try (apply T; assumption). intros z Q. apply T in Q. congruence.
Qed.

(** The same where the code has a literal or a name. *)
Theorem C78_sizes : forall fl src ds P, generated fl src ds P -> compiles P -> forall s z, size_val (gp_pkg P) s = Some z <-> go_int s z \/ head_is is_digit s = false /\ means ds s z.
Proof. exact text_sizes. Qed.
Print Assumptions C78_sizes.

(** In a specification that gives no name two values, the values, limits and labels of the types are those it says. *)
Theorem C78_values : forall ds, unambiguous ds -> forall s z, stands ds s z <-> xval (xconsts ds) s = Some z.
Proof. exact stands_val. Qed.
Print Assumptions C78_values.
Theorem C78_limits : forall ds, unambiguous ds -> forall s z, s <> "" -> stands ds s z -> z <= MaxUint32 ->
  xbound (xconsts ds) s = Some (Some z) /\ el_dt (xconsts ds) (declTypeString s) = Some (CString (Some z)) /\ el_dt (xconsts ds) (declTypeOpaqueVarArray s) = Some (CVarOpaque (Some z)) /\
  el_dt (xconsts ds) (declTypeOpaqueArray s) = Some (COpaque (Z.to_nat z)) /\ (forall t c, el (xconsts ds) t = Some c -> el_dt (xconsts ds) (declTypeVarArray t s) = Some (CVarArray (Some z) c)).
Proof. exact limits. Qed.
Print Assumptions C78_limits.
Theorem C78_labels : forall ds, unambiguous ds -> forall ls zs, (forall s, In s ls -> s <> "TRUE" /\ s <> "FALSE") -> (Forall2 (stands ds) ls zs <-> xlabels (xconsts ds) ls = Some zs).
Proof. exact labels_are. Qed.
Print Assumptions C78_labels.
Example C78_values_ex : exists ds, front "const n = 0x10; enum e { a = 010, b = n, c = b }; typedef opaque f[c];" = Some ds /\ unambiguous ds /\ stands ds "c" 16 /\ stands ds "a" 8 /\ stands ds "0x1F" 31.
Proof.
  eexists. split; [vm_compute; reflexivity|]. match goal with |- unambiguous ?d /\ _ => set (ds := d) end.
  assert (U : unambiguous ds).
  { intros s v v' A B. apply named_iff in A. apply named_iff in B. destruct A as (x & A & <- & <-). destruct B as (y & B & N & <-). cbn in A, B.
    repeat match goal with H : _ \/ _ |- _ => destruct H as [<-|H] | H : False |- _ => destruct H end; cbn in N |- *; try reflexivity; discriminate N. }
  split; [exact U|]. repeat split; apply (stands_val ds U); vm_compute; reflexivity.
Qed.

(** RFC 4506 lets a decimal constant be negative.  Here a minus sign outside comments stops the
    generator, and no constant of a generated package is negative. *)
Theorem C78_no_minus : forall fl src ts, go_tokens src = Some ts -> In (GOp "-") ts -> front src = None /\ generate fl src = None.
Proof. exact no_minus. Qed.
Print Assumptions C78_no_minus.
Theorem C78_nonneg : forall ds n z, means ds n z -> 0 <= z.
Proof. exact means_nonneg. Qed.
Print Assumptions C78_nonneg.
Example C78_no_minus_ex : exists ts, go_tokens "enum e { a = -1 }; // -" = Some ts /\ In (GOp "-") ts /\ front "enum e { a = 1 }; // -" <> None.
Proof. eexists. split; [vm_compute; reflexivity|]. split; [cbn; tauto|vm_compute; discriminate]. Qed.
