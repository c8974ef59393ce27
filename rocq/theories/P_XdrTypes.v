(** C61: the types of package xdr, and its unit tests for all values.  [xdr_env]: the types of /repo/xdr/types.go;
    [Encode], [DecodeRest], [fresh]: as in P_Codec.v. *)
From Coq Require Import Strings.String.
From Verif Require Import Bytes XdrLib Types Interp Spec Runs XdrTypes.
Open Scope string_scope.
Open Scope Z_scope.
Open Scope list_scope.

Theorem C61_wire :
  (forall v b, Encode xdr_env (CIdent "Bool") (VBool v) b None <-> is_be 4 (if v then 1 else 0) b) /\
  (forall z b, 0 <= z < 2 ^ 32 -> Encode xdr_env (CIdent "Uint32") (VInt z) b None <-> is_be 4 z b) /\
  (forall z b, - 2 ^ 31 <= z < 2 ^ 31 -> Encode xdr_env (CIdent "Int32") (VInt z) b None <-> is_be 4 (z mod 2 ^ 32) b) /\
  (forall z b, 0 <= z < 2 ^ 64 -> Encode xdr_env (CIdent "Uint64") (VInt z) b None <-> is_be 8 z b) /\
  (forall z b, - 2 ^ 63 <= z < 2 ^ 63 -> Encode xdr_env (CIdent "Int64") (VInt z) b None <-> is_be 8 (z mod 2 ^ 64) b) /\
  (forall b, Encode xdr_env (CIdent "Void") (VStruct []) b None <-> b = []).
Proof. exact c61_wrappers. Qed.
Print Assumptions C61_wire.
Theorem C61_roundtrip : forall x t v b rest z, In (x, t) xdr_env -> has_ty xdr_env t v ->
  Encode xdr_env (CIdent x) v b None -> fresh xdr_env (CIdent x) z -> DecodeRest xdr_env (CIdent x) (b ++ rest) z rest v.
Proof. exact c61_back. Qed.
Print Assumptions C61_roundtrip.
Example C61_ex : Encode xdr_env (CIdent "Int32") (VInt (-2)) [xff; xff; xff; xfe] None /\ fresh xdr_env (CIdent "Int32") (VInt 0) /\
  In ("Int32", CS32) xdr_env /\ has_ty xdr_env CS32 (VInt (-2)).
Proof. split; [exists 2%nat; reflexivity|]. split; [exists 2%nat; reflexivity|]. split; [cbn; auto|constructor; lia]. Qed.

(** TestXdrString and TestLargeStringLength: every string, every limit it fits, every cut. *)
Theorem C61_test_strings : forall m s old, 0 <= m -> zlen s <= m -> zlen s < 2 ^ 32 -> exists buf,
  XdrString (MakeWriter []) m s = (MakeWriter buf, s) /\
  XdrString (MakeReader buf) m old = (MakeReader [], s) /\
  forall k, (k < List.length buf)%nat -> Error (fst (XdrString (MakeReader (firstn k buf)) m old)) <> None.
Proof. exact c61_string. Qed.
Print Assumptions C61_test_strings.
(** TestXdrVarArray and TestLargeVarArrayLength. *)
Theorem C61_test_vararrays : forall m s old, 0 <= m -> zlen s <= m -> zlen s < 2 ^ 32 -> exists buf,
  XdrVarArray (MakeWriter []) m (Some s) = (MakeWriter buf, Some s) /\
  XdrVarArray (MakeReader buf) m old = (MakeReader [], Some s) /\
  forall k, (k < List.length buf)%nat -> Error (fst (XdrVarArray (MakeReader (firstn k buf)) m old)) <> None.
Proof. exact c61_vararray. Qed.
Print Assumptions C61_test_vararrays.
(** The values of the tests. *)
Example C61_test_ex : zlen (list_byte_of_string "hello world") <= 100 /\
  fst (XdrString (MakeWriter []) 100 (list_byte_of_string "hello")) = MakeWriter ([x00; x00; x00; x05] ++ list_byte_of_string "hello" ++ [x00; x00; x00]) /\
  Error (fst (XdrString (MakeReader (firstn 6 (WriteBuf (fst (XdrString (MakeWriter []) 100 (list_byte_of_string "hello world")))))) 100 [])) <> None /\
  Error (fst (XdrVarArray (MakeReader (firstn 6 (WriteBuf (fst (XdrVarArray (MakeWriter []) 100 (Some [x01;x02;x03;x04;x05;x06;x07;x08;x09;x0a])))))) 100 None)) <> None.
Proof. vm_compute. intuition congruence. Qed.
