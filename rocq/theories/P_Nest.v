(** Variable arrays inside the elements of variable arrays (C49).

    [supportedx fl ds]: the XDR types [E] the definitions [ds] stand for and the Go package [G]
    emitted for them, under the conditions of [supported] (see P_GenSem.v) except that a
    variable array may be given inline inside the element of another (NestB.v).  [root d]: the
    name of the Go type that [d] declares, its right-hand side, and where its value is kept (in
    the field P for an optional).  [can_dt K E dt t p]: along the path [p] of members, arms that
    some discriminant chooses and optionals, [t] leads to the inline type [dt]; [can] the same
    from a type specifier (NestF.v).  [touches t]: [t] is not made of voids only.  [within m n]:
    the bound [m] admits [n] elements.  [Encode E t v b e]: encoding by the meaning of the type
    gives the bytes [b] and the error [e].  [supportedx_prog]: with programs; [generate],
    [declares]: see P_GenText.v. *)
From Verif Require Import GoLex XLex Gram GParse Emit Bytes XdrLib Types Interp Spec Runs Check GoAst GoSem GElab GoRes GoPkg GoWf GSimD NestB NestC NestD NestF NestG NestT.
Open Scope string_scope.
Open Scope Z_scope.
Open Scope list_scope.

(** Whenever the bounds leave room for one array of two or two arrays of one, there is a value
    of the type, which its meaning encodes, on which the emitted method panics. *)
Theorem C49_every_nesting : forall fl ds E G, supportedx fl ds = Some (E, G) ->
  forall D d x t p0 t1 sz1 p t2 sz2 q m1 m2, In d ds -> root d = Some (x, t, p0) -> good D E (CIdent x) ->
  can_dt (xconsts ds) E (declTypeVarArray t1 sz1) t p -> can (xconsts ds) E (declTypeVarArray t2 sz2) t1 q -> touches t2 = true ->
  xbound (xconsts ds) sz1 = Some m1 -> xbound (xconsts ds) sz2 = Some m2 ->
  (within m1 1 /\ within m2 2) \/ (within m1 2 /\ within m2 1) ->
  exists v b, has_ty E (CIdent x) v /\ Encode E (CIdent x) v b None /\
    exists M, forall m a, (M <= m)%nat -> call G m x (MakeWriter a) v = GPanic.
Proof. exact nest_panics_good. Qed.
Print Assumptions C49_every_nesting.
(** Which values: if the inner array of some element [j] is longer than [i], while the outer
    array or the inner array of its element [i] is not, the method does not succeed. *)
Theorem C49_values : forall fl ds E G, supportedx fl ds = Some (E, G) ->
  forall D d x t p0 v w p t1 sz1 l j ej q t2 sz2 lj i, In d ds -> root d = Some (x, t, p0) -> good D E (CIdent x) -> has_ty E (CIdent x) v ->
  path_load v p0 = Some w -> reach_dt (xconsts ds) (declTypeVarArray t1 sz1) t w p -> path_load w p = Some (VSlice (Some l)) ->
  nth_error l j = Some ej -> reach (xconsts ds) (declTypeVarArray t2 sz2) t1 ej q -> path_load ej q = Some (VSlice (Some lj)) ->
  touches t2 = true -> (i < List.length lj)%nat ->
  (List.length l <= i)%nat \/ (exists ei oi, nth_error l i = Some ei /\ path_load ei q = Some (VSlice oi) /\ (List.length (elems oi) <= i)%nat) ->
  forall m a s' v', call G m x (MakeWriter a) v = GRet (s', v') -> x_err s' <> None.
Proof. exact nest_never. Qed.
Print Assumptions C49_values.
(** A specification that meets all other conditions is supported (C48) or has such arrays. *)
Theorem C49_boundary : forall fl ds r, (supported fl ds = Some r -> supportedx fl ds = Some r) /\
  (supportedx fl ds = Some r -> supported fl ds = Some r \/ exists d x t p, In d ds /\ root d = Some (x, t, p) /\ nested_in t).
Proof. exact (fun fl ds r => conj (supported_x fl ds r) (supported_or_nested fl ds r)). Qed.
Print Assumptions C49_boundary.

(** The same about the generated text. *)
Theorem C49_text : forall fl src ds E P, ok_flags fl = true -> front src = Some ds -> supportedx_prog fl ds = Some (E, P) ->
  exists o, generate fl src = Some o /\ declares (fl_pkg fl) (files_of o) P /\ forall p P', declares p (files_of o) P' ->
  forall D d x t p0 t1 sz1 p t2 sz2 q m1 m2, In d ds -> root d = Some (x, t, p0) -> good D E (CIdent x) ->
  can_dt (xconsts ds) E (declTypeVarArray t1 sz1) t p -> can (xconsts ds) E (declTypeVarArray t2 sz2) t1 q -> touches t2 = true ->
  xbound (xconsts ds) sz1 = Some m1 -> xbound (xconsts ds) sz2 = Some m2 ->
  (within m1 1 /\ within m2 2) \/ (within m1 2 /\ within m2 1) ->
  exists v b, has_ty E (CIdent x) v /\ Encode E (CIdent x) v b None /\
    exists M, forall m a, (M <= m)%nat -> call (gp_pkg P') m x (MakeWriter a) v = GPanic.
Proof. exact nest_text. Qed.
Print Assumptions C49_text.

(** The specification of [C49_nested_inline], and one with bounds, an optional and a union. *)
Example C49_ex : supportedx (make_flags "p") nx_ds = Some (nx_E, nx_G) /\ supported (make_flags "p") nx_ds = None /\
  exists d x t p0 t1 sz1 p t2 sz2 q m1 m2, In d nx_ds /\ root d = Some (x, t, p0) /\ x = "Nest" /\ good 6 nx_E (CIdent x) /\
    can_dt (xconsts nx_ds) nx_E (declTypeVarArray t1 sz1) t p /\ can (xconsts nx_ds) nx_E (declTypeVarArray t2 sz2) t1 q /\ touches t2 = true /\
    xbound (xconsts nx_ds) sz1 = Some m1 /\ xbound (xconsts nx_ds) sz2 = Some m2 /\ within m1 1 /\ within m2 2.
Proof.
  split; [vm_compute; reflexivity|]. split; [vm_compute; reflexivity|]. do 12 eexists. split; [left; reflexivity|]. split; [reflexivity|]. split; [reflexivity|]. split; [exact nx_good|].
  split; [apply cn_spec; eapply cn_struct; [left; reflexivity|apply cn_here]|]. split; [eapply cn_struct; [left; reflexivity|apply cn_here]|]. split; [reflexivity|]. repeat split; reflexivity.
Qed.
Example C49_ex2 : exists ds E G, front ny_src = Some ds /\ supportedx (make_flags "p") ds = Some (E, G) /\
  exists d x t p0 t1 sz1 p t2 sz2 q m1 m2, In d ds /\ root d = Some (x, t, p0) /\ x = "Un" /\ good 12 E (CIdent x) /\
    can_dt (xconsts ds) E (declTypeVarArray t1 sz1) t p /\ can (xconsts ds) E (declTypeVarArray t2 sz2) t1 q /\ q = [PField "O"; PDeref; PField "C"] /\ touches t2 = true /\
    xbound (xconsts ds) sz1 = Some m1 /\ xbound (xconsts ds) sz2 = Some m2 /\ within m1 1 /\ within m2 2 /\ ~ within m1 2.
Proof.
  do 3 eexists. split; [vm_compute; reflexivity|]. split; [vm_compute; reflexivity|]. do 12 eexists. split; [right; left; reflexivity|]. split; [reflexivity|]. split; [reflexivity|]. split; [apply (goodb_sound 12); vm_compute; reflexivity|].
  split; [apply cn_spec; eapply cn_union; [reflexivity|apply (HT_bool _ true)|reflexivity|vm_compute; reflexivity|apply cn_here]|].
  split; [eapply cn_struct; [left; reflexivity|]; apply cn_ptr; eapply cn_struct; [left; reflexivity|apply cn_here]|]. split; [reflexivity|]. split; [reflexivity|]. split; [vm_compute; reflexivity|]. split; [vm_compute; reflexivity|].
  repeat split; try reflexivity; try discriminate. intros (_ & X). apply X. reflexivity.
Qed.
Example C49_text_ex : ok_flags (make_flags "p") = true /\ exists P, supportedx_prog (make_flags "p") nx_ds = Some (nx_E, P) /\ gp_pkg P = nx_G.
Proof. split; [reflexivity|]. eexists. split; vm_compute; reflexivity. Qed.
