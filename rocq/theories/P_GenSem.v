(** What the generated code does (C48, C49, C57).

    [front src]: the definitions read from the specification [src].  [supported fl ds]: the
    XDR types [E] the definitions stand for (GElab.v) and the Go package [G] emitted for them
    (GoAst.v), provided no variable array is nested inline in another's element, no array
    is fixed-size except opaque, and names are used unambiguously (see C49, C50, C52 for what
    happens otherwise).  [call G m x s v]: a call of the generated method Xdr of [*x] on a
    pointer to [v], with Go's semantics (GoSem.v); [m] bounds the steps.  [runs], [xdr]: the
    meaning of the type (Interp.v); [Wire RFC]: RFC 4506 (Spec.v). *)
From Verif Require Import GoLex XLex Gram GParse Emit Bytes XdrLib Types Interp Spec Runs GoAst GoSem GElab RepoText RpcTypes GSimD GenCommitted.
Open Scope string_scope.
Open Scope Z_scope.
Open Scope list_scope.

(** On every state and value on which the meaning of the type is defined, the code does the same. *)
Theorem C48_same_effect : forall fl ds E G, supported fl ds = Some (E, G) -> forall x c s v s' v', lookup x E = Some c ->
  runs E (CIdent x) s v s' v' -> exists M, forall m, (M <= m)%nat -> call G m x s v = GRet (s', v').
Proof. exact gen_sim. Qed.
Print Assumptions C48_same_effect.
(** For values of the type, it is. *)
Theorem C48_total : forall fl ds E G D, supported fl ds = Some (E, G) -> forall x s v, good D E (CIdent x) -> has_ty E (CIdent x) v ->
  exists s' v', runs E (CIdent x) s v s' v' /\ exists M, forall m, (M <= m)%nat -> call G m x s v = GRet (s', v').
Proof. exact gen_total. Qed.
Print Assumptions C48_total.
(** In terms of RFC 4506. *)
Theorem C48_encodes : forall fl ds E G D, supported fl ds = Some (E, G) -> forall x v a, good D E (CIdent x) -> has_ty E (CIdent x) v ->
  bounded RFC E (CIdent x) v ->
  exists b, Wire RFC E (CIdent x) v b /\ exists M, forall m, (M <= m)%nat -> call G m x (MakeWriter a) v = GRet (MakeWriter (a ++ b), v).
Proof. exact gen_encodes. Qed.
Print Assumptions C48_encodes.
Theorem C48_decodes : forall fl ds E G D, supported fl ds = Some (E, G) -> forall x v b rest z, good D E (CIdent x) ->
  Wire RFC E (CIdent x) v b -> fresh E (CIdent x) z ->
  exists y, same E (CIdent x) v y /\ exists M, forall m, (M <= m)%nat -> call G m x (MakeReader (b ++ rest)) z = GRet (MakeReader rest, y).
Proof. exact gen_decodes. Qed.
Print Assumptions C48_decodes.
(** A specification with every kind of declaration, and a value of its type res. *)
Example C48_ex : front sx_src = Some sx_ds /\ supported (make_flags "p") sx_ds = Some (sx_E, sx_G) /\ good 12 sx_E (CIdent "Res") /\
  has_ty sx_E (CIdent "Res") sx_v /\ fresh sx_E (CIdent "Res") sx_z /\
  call sx_G 40 "Res" (MakeWriter []) sx_v = GRet (MakeWriter sx_b, sx_v) /\
  call sx_G 40 "Res" (MakeReader (sx_b ++ [x2a])) sx_z = GRet (MakeReader [x2a], sx_v).
Proof. exact (conj sx_front (conj sx_sup (conj sx_good (conj sx_ty (conj sx_fresh (conj sx_enc sx_dec)))))). Qed.

(** The inner loop of nested inline arrays indexes the outer array with its own variable:
    the code panics on [[1, 2]] and writes [[1], [2]] as [[1], [1]]; decoding goes wrong in the same way. *)
Theorem C49_nested_inline : front nx_src = Some nx_ds /\ el_spec (make_flags "p") nx_ds = Some nx_E /\ pkg_of (make_flags "p") nx_ds = Some nx_G /\
  good 6 nx_E (CIdent "Nest") /\ has_ty nx_E (CIdent "Nest") (nx_v [[1; 2]]) /\ has_ty nx_E (CIdent "Nest") (nx_v [[1]; [2]]) /\
  Encode nx_E (CIdent "Nest") (nx_v [[1; 2]]) nx_b1 None /\ Encode nx_E (CIdent "Nest") (nx_v [[1]; [2]]) nx_b2 None /\
  (forall m, (20 <= m)%nat -> call nx_G m "Nest" (MakeWriter []) (nx_v [[1; 2]]) = GPanic) /\
  (forall m, (20 <= m)%nat -> call nx_G m "Nest" (MakeReader nx_b1) nx_z = GPanic) /\
  (forall m, (20 <= m)%nat -> call nx_G m "Nest" (MakeWriter []) (nx_v [[1]; [2]]) =
     GRet (MakeWriter [x00; x00; x00; x02;  x00; x00; x00; x01; x00; x00; x00; x01;  x00; x00; x00; x01; x00; x00; x00; x01], nx_v [[1]; [2]])) /\
  (forall m, (20 <= m)%nat -> call nx_G m "Nest" (MakeReader nx_b2) nx_z = GRet (MakeReader [], nx_v [[2]; [0]])).
Proof.
  exact (conj nx_front (conj nx_el (conj nx_pkg (conj nx_good (conj nx_ty1 (conj nx_ty2 (conj nx_enc1 (conj nx_enc2
    (conj nx_panic (conj nx_panic_dec (conj nx_wrong nx_wrong_dec))))))))))).
Qed.
Print Assumptions C49_nested_inline.

(** The types of the committed specifications: [is_sup fl src E] says that [E] are the types of
    the supported specification [src], in the order of types.go. *)
Theorem C57_rfc1057 : is_sup (make_flags "rfc1057") rfc1057_prot_x rpc_env /\ forall x, In x (map fst rpc_env) -> good rfc1813_D rpc_env (CIdent x).
Proof. exact (conj rfc1057_sup rfc1057_good). Qed.
Print Assumptions C57_rfc1057.
Theorem C57_rfc1813 : is_sup (make_flags "rfc1813") rfc1813_prot_x rfc1813_env /\ forall x, In x (map fst rfc1813_env) -> good rfc1813_D rfc1813_env (CIdent x).
Proof. exact (conj rfc1813_sup rfc1813_good). Qed.
Print Assumptions C57_rfc1813.
Example C57_ex : List.length rpc_env = 20%nat /\ List.length rfc1813_env = 140%nat /\
  lookup "Sattr3" rfc1813_env <> None /\ lookup "READDIRPLUS3res" rfc1813_env <> None /\
  lookup "Diropargs3" rfc1813_env = Some (CStruct [("Dir", CIdent "Nfs_fh3"); ("Name", CIdent "Filename3")]) /\
  lookup "Post_op_fh3" rfc1813_env = Some (CUnion "Handle_follows" CBool [([1], Some ("Handle", CIdent "Nfs_fh3")); ([0], None)] None).
Proof. vm_compute. repeat split; discriminate. Qed.
