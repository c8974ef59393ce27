(** Concrete declarations and values used by the examples beside the property theorems. *)
From Verif Require Import Bytes XdrLib Types Interp Spec Prim Runs Check.
Open Scope string_scope.
Open Scope Z_scope.
Open Scope list_scope.

(** An enum, a linked list, a union with several labels, a void arm and a default, a union
    without default, and a struct using all of them. *)
Definition ex_env : env :=
  [ ("Color", CU32);
    ("Node", CStruct [("Val", CU32); ("Next", CPtr (CIdent "Node"))]);
    ("Shape", CUnion "Kind" (CIdent "Color")
       [([0], Some ("Radius", CU64)); ([1; 2], Some ("Sides", CVarArray (Some 4) CS32)); ([3], None)]
       (Some (Some ("Name", CString (Some 10)))));
    ("Strict", CUnion "Ok" CBool [([1], Some ("Body", CVarOpaque None))] None);
    ("Msg", CStruct [("Flag", CBool); ("Data", CVarOpaque (Some 8)); ("Hash", COpaque 5);
                     ("Shapes", CVarArray None (CIdent "Shape")); ("Link", CPtr (CIdent "Node"));
                     ("Last", CIdent "Strict")]) ].

Definition ex_t : cty := CIdent "Msg".

Definition ex_shape1 : val :=
  VStruct [("Kind", VInt 2); ("Radius", VInt 77); ("Sides", VSlice (Some [VInt (-1); VInt 5]));
           ("Name", VStr [x41])].
Definition ex_shape2 : val :=
  VStruct [("Kind", VInt 9); ("Radius", VInt 0); ("Sides", VSlice None); ("Name", VStr [x41; x42])].

(** Has a nil slice, data in unselected arms, a linked list and an unlisted discriminant. *)
Definition ex_v : val :=
  VStruct [("Flag", VBool true); ("Data", VBytes None); ("Hash", VArr [x01; x02; x03; x04; x05]);
           ("Shapes", VSlice (Some [ex_shape1; ex_shape2]));
           ("Link", VPtr (Some (VStruct [("Val", VInt 7); ("Next", VPtr None)])));
           ("Last", VStruct [("Ok", VBool false); ("Body", VBytes (Some [x09]))])].

Definition ex_b : list byte :=
  [x00; x00; x00; x01;  x00; x00; x00; x00;  x01; x02; x03; x04; x05; x00; x00; x00;
   x00; x00; x00; x02;
     x00; x00; x00; x02;  x00; x00; x00; x02;  xff; xff; xff; xff;  x00; x00; x00; x05;
     x00; x00; x00; x09;  x00; x00; x00; x02;  x41; x42; x00; x00;
   x00; x00; x00; x01;  x00; x00; x00; x07;  x00; x00; x00; x00;
   x00; x00; x00; x00].

(** What comes back. *)
Definition ex_x : val :=
  VStruct [("Flag", VBool true); ("Data", VBytes (Some [])); ("Hash", VArr [x01; x02; x03; x04; x05]);
           ("Shapes", VSlice (Some
              [VStruct [("Kind", VInt 2); ("Radius", VInt 0);
                        ("Sides", VSlice (Some [VInt (-1); VInt 5])); ("Name", VStr [])];
               VStruct [("Kind", VInt 9); ("Radius", VInt 0); ("Sides", VSlice None);
                        ("Name", VStr [x41; x42])]]));
           ("Link", VPtr (Some (VStruct [("Val", VInt 7); ("Next", VPtr None)])));
           ("Last", VStruct [("Ok", VBool false); ("Body", VBytes None)])].

Definition ex_z : val :=
  VStruct [("Flag", VBool false); ("Data", VBytes None); ("Hash", VArr (zeros 5));
           ("Shapes", VSlice None); ("Link", VPtr None);
           ("Last", VStruct [("Ok", VBool false); ("Body", VBytes None)])].

Lemma ex_good : good 5 ex_env ex_t.
Proof. apply (goodb_sound 5). vm_compute. reflexivity. Qed.
Lemma ex_fresh : fresh ex_env ex_t ex_z.
Proof. exists 5%nat. reflexivity. Qed.
Lemma ex_ty : has_ty ex_env ex_t ex_v.
Proof. apply (has_tyb_sound 9). vm_compute. reflexivity. Qed.
Lemma ex_x_ty : has_ty ex_env ex_t ex_x.
Proof. apply (has_tyb_sound 9). vm_compute. reflexivity. Qed.
Lemma ex_z_ty : has_ty ex_env ex_t ex_z.
Proof. apply (has_tyb_sound 9). vm_compute. reflexivity. Qed.
Lemma ex_encode : Encode ex_env ex_t ex_v ex_b None.
Proof. exists 20%nat. vm_compute. reflexivity. Qed.
Lemma ex_decode : DecodeRest ex_env ex_t (ex_b ++ [x07; x08]) ex_z [x07; x08] ex_x.
Proof. exists 20%nat. vm_compute. reflexivity. Qed.
