(** RFC 4506 as an inductive relation between values and byte strings.  Nothing here
    refers to the code: integers are described by [be_val] (base-256 value of the
    bytes), padding and lengths explicitly. *)
From Verif Require Import Bytes XdrLib Types.
Open Scope string_scope.
Open Scope Z_scope.
Open Scope list_scope.

(** Three points on which implementations may be stricter or laxer. *)
Record policy : Type := mkPolicy {
  pad_zero : bool;      (* padding bytes must be zero *)
  bool_01 : bool;       (* booleans must be 0 or 1 (otherwise: non-zero is true) *)
  union_listed : bool   (* a union without default must have a listed discriminant *)
}.
(** RFC 4506 proper. *)
Definition RFC : policy := mkPolicy true true true.
(** What the generated encoders emit: unlisted discriminants are not rejected. *)
Definition ENC : policy := mkPolicy true true false.
(** What the generated decoders accept. *)
Definition DEC : policy := mkPolicy false false false.

Definition is_be (k : nat) (z : Z) (bs : list byte) : Prop :=
  List.length bs = k /\ be_val bs = z.

Definition within (m : option Z) (n : Z) : Prop :=
  n < 2 ^ 32 /\ match m with Some k => n <= k | None => True end.

(** [pad] is the padding after [n] bytes of data. *)
Definition is_pad (p : policy) (n : nat) (pad : list byte) : Prop :=
  (List.length pad < 4)%nat /\ Z.of_nat (n + List.length pad) mod 4 = 0 /\
  (pad_zero p = true -> Forall (fun b => b = x00) pad).

Section Wire.
Variable p : policy.
Variable E : env.

Inductive Wire : cty -> val -> list byte -> Prop :=
| W_u32 z bs : 0 <= z < 2 ^ 32 -> is_be 4 z bs -> Wire CU32 (VInt z) bs
| W_s32 z bs : - 2 ^ 31 <= z < 2 ^ 31 -> is_be 4 (z mod 2 ^ 32) bs -> Wire CS32 (VInt z) bs
| W_u64 z bs : 0 <= z < 2 ^ 64 -> is_be 8 z bs -> Wire CU64 (VInt z) bs
| W_s64 z bs : - 2 ^ 63 <= z < 2 ^ 63 -> is_be 8 (z mod 2 ^ 64) bs -> Wire CS64 (VInt z) bs
| W_false bs : is_be 4 0 bs -> Wire CBool (VBool false) bs
| W_true bs w : is_be 4 w bs -> w <> 0 -> (bool_01 p = true -> w = 1) ->
    Wire CBool (VBool true) bs
| W_opaque n bs pad :
    List.length bs = n -> is_pad p n pad -> Wire (COpaque n) (VArr bs) (bs ++ pad)
| W_varopaque m o hd bs pad :
    bs = bytes_of o -> within m (zlen bs) ->
    is_be 4 (zlen bs) hd -> is_pad p (List.length bs) pad ->
    Wire (CVarOpaque m) (VBytes o) (hd ++ bs ++ pad)
| W_string m bs hd pad :
    within m (zlen bs) ->
    is_be 4 (zlen bs) hd -> is_pad p (List.length bs) pad ->
    Wire (CString m) (VStr bs) (hd ++ bs ++ pad)
| W_vararray m t o l hd body :
    l = elems o -> within m (zlen l) ->
    is_be 4 (zlen l) hd -> WireList t l body ->
    Wire (CVarArray m t) (VSlice o) (hd ++ body)
| W_absent t hd : is_be 4 0 hd -> Wire (CPtr t) (VPtr None) hd
| W_present t v hd w body :
    is_be 4 w hd -> w <> 0 -> (bool_01 p = true -> w = 1) -> Wire t v body ->
    Wire (CPtr t) (VPtr (Some v)) (hd ++ body)
| W_struct fs l bs : WireFields fs l bs -> Wire (CStruct fs) (VStruct l) bs
| W_union_arm sw st arms def l dv d bs1 f t v bs2 :
    lookup sw l = Some dv -> Wire st dv bs1 -> disc_of dv = Some d ->
    pick_arm d arms def = Some (Some (f, t)) ->
    lookup f l = Some v -> Wire t v bs2 ->
    Wire (CUnion sw st arms def) (VStruct l) (bs1 ++ bs2)
| W_union_void sw st arms def l dv d bs :
    lookup sw l = Some dv -> Wire st dv bs -> disc_of dv = Some d ->
    pick_arm d arms def = Some None ->
    Wire (CUnion sw st arms def) (VStruct l) bs
| W_union_unlisted sw st arms def l dv d bs :
    lookup sw l = Some dv -> Wire st dv bs -> disc_of dv = Some d ->
    pick_arm d arms def = None -> union_listed p = false ->
    Wire (CUnion sw st arms def) (VStruct l) bs
| W_ident x t v bs : lookup x E = Some t -> Wire t v bs -> Wire (CIdent x) v bs
with WireList : cty -> list val -> list byte -> Prop :=
| WL_nil t : WireList t [] []
| WL_cons t v l b1 b2 : Wire t v b1 -> WireList t l b2 -> WireList t (v :: l) (b1 ++ b2)
with WireFields : list (string * cty) -> list (string * val) -> list byte -> Prop :=
| WF_done l : WireFields [] l []
| WF_next f t fs l v b1 b2 :
    lookup f l = Some v -> Wire t v b1 -> WireFields fs l b2 ->
    WireFields ((f, t) :: fs) l (b1 ++ b2).

End Wire.

Scheme Wire_mind := Minimality for Wire Sort Prop
  with WireList_mind := Minimality for WireList Sort Prop
  with WireFields_mind := Minimality for WireFields Sort Prop.
Combined Scheme Wire_mutind from Wire_mind, WireList_mind, WireFields_mind.

(** ** Same data: equality of everything that is part of the XDR value.  nil and empty
    slices are the same data; unselected union arms are not part of the value. *)
Section Same.
Variable E : env.

Inductive same : cty -> val -> val -> Prop :=
| S_u32 z : same CU32 (VInt z) (VInt z)
| S_s32 z : same CS32 (VInt z) (VInt z)
| S_u64 z : same CU64 (VInt z) (VInt z)
| S_s64 z : same CS64 (VInt z) (VInt z)
| S_bool b : same CBool (VBool b) (VBool b)
| S_opaque n bs : same (COpaque n) (VArr bs) (VArr bs)
| S_varopaque m o1 o2 : bytes_of o1 = bytes_of o2 -> same (CVarOpaque m) (VBytes o1) (VBytes o2)
| S_string m bs : same (CString m) (VStr bs) (VStr bs)
| S_vararray m t o1 o2 : sames t (elems o1) (elems o2) ->
    same (CVarArray m t) (VSlice o1) (VSlice o2)
| S_absent t : same (CPtr t) (VPtr None) (VPtr None)
| S_present t v w : same t v w -> same (CPtr t) (VPtr (Some v)) (VPtr (Some w))
| S_struct fs l m : same_fields fs l m -> same (CStruct fs) (VStruct l) (VStruct m)
| S_union_arm sw st arms def l m dv dw d f t v w :
    lookup sw l = Some dv -> lookup sw m = Some dw -> same st dv dw ->
    disc_of dv = Some d -> pick_arm d arms def = Some (Some (f, t)) ->
    lookup f l = Some v -> lookup f m = Some w -> same t v w ->
    same (CUnion sw st arms def) (VStruct l) (VStruct m)
| S_union_void sw st arms def l m dv dw d :
    lookup sw l = Some dv -> lookup sw m = Some dw -> same st dv dw ->
    disc_of dv = Some d ->
    (pick_arm d arms def = Some None \/ pick_arm d arms def = None) ->
    same (CUnion sw st arms def) (VStruct l) (VStruct m)
| S_ident x t v w : lookup x E = Some t -> same t v w -> same (CIdent x) v w
with sames : cty -> list val -> list val -> Prop :=
| Ss_nil t : sames t [] []
| Ss_cons t v w l m : same t v w -> sames t l m -> sames t (v :: l) (w :: m)
with same_fields : list (string * cty) -> list (string * val) -> list (string * val) -> Prop :=
| SF_nil l m : same_fields [] l m
| SF_cons f t fs l m v w :
    lookup f l = Some v -> lookup f m = Some w -> same t v w ->
    same_fields fs l m -> same_fields ((f, t) :: fs) l m.

(** ** Canonical values: no data outside the XDR value.  Slices are non-nil, unselected
    arms hold the zero value. *)
Inductive canon : cty -> val -> Prop :=
| K_u32 z : canon CU32 (VInt z)
| K_s32 z : canon CS32 (VInt z)
| K_u64 z : canon CU64 (VInt z)
| K_s64 z : canon CS64 (VInt z)
| K_bool b : canon CBool (VBool b)
| K_opaque n bs : canon (COpaque n) (VArr bs)
| K_varopaque m bs : canon (CVarOpaque m) (VBytes (Some bs))
| K_string m bs : canon (CString m) (VStr bs)
| K_vararray m t l : canons t l -> canon (CVarArray m t) (VSlice (Some l))
| K_absent t : canon (CPtr t) (VPtr None)
| K_present t v : canon t v -> canon (CPtr t) (VPtr (Some v))
| K_struct fs l : canon_fields fs l -> canon (CStruct fs) (VStruct l)
| K_union_arm sw st arms def l dv d f t v :
    lookup sw l = Some dv -> canon st dv ->
    disc_of dv = Some d -> pick_arm d arms def = Some (Some (f, t)) ->
    lookup f l = Some v -> canon t v ->
    (forall g tg x, In (g, tg) (union_fields sw st arms def) -> g <> sw -> g <> f ->
       lookup g l = Some x -> exists n, zero n E tg = Some x) ->
    canon (CUnion sw st arms def) (VStruct l)
| K_union_void sw st arms def l dv d :
    lookup sw l = Some dv -> canon st dv ->
    disc_of dv = Some d ->
    (pick_arm d arms def = Some None \/ pick_arm d arms def = None) ->
    (forall g tg x, In (g, tg) (union_fields sw st arms def) -> g <> sw ->
       lookup g l = Some x -> exists n, zero n E tg = Some x) ->
    canon (CUnion sw st arms def) (VStruct l)
| K_ident x t v : lookup x E = Some t -> canon t v -> canon (CIdent x) v
with canons : cty -> list val -> Prop :=
| Ks_nil t : canons t []
| Ks_cons t v l : canon t v -> canons t l -> canons t (v :: l)
with canon_fields : list (string * cty) -> list (string * val) -> Prop :=
| KF_nil l : canon_fields [] l
| KF_cons f t fs l v : lookup f l = Some v -> canon t v -> canon_fields fs l ->
    canon_fields ((f, t) :: fs) l.

End Same.

Scheme same_mind := Minimality for same Sort Prop
  with sames_mind := Minimality for sames Sort Prop
  with same_fields_mind := Minimality for same_fields Sort Prop.
Combined Scheme same_mutind from same_mind, sames_mind, same_fields_mind.
Scheme canon_mind := Minimality for canon Sort Prop
  with canons_mind := Minimality for canons Sort Prop
  with canon_fields_mind := Minimality for canon_fields Sort Prop.
Combined Scheme canon_mutind from canon_mind, canons_mind, canon_fields_mind.

(** A target variable holding no non-nil pointer outside of slices (in particular any
    freshly declared variable). *)
Fixpoint no_stale (v : val) : bool :=
  match v with
  | VPtr (Some _) => false
  | VStruct l => forallb (fun fv => no_stale (snd fv)) l
  | _ => true
  end.

(** ** Which values can be encoded: every wire-visible length is within its declared bound
    (and below 2^32); under a strict policy unions also have listed discriminants. *)
Section Bounded.
Variable p : policy.
Variable E : env.

Inductive bounded : cty -> val -> Prop :=
| B_u32 z : bounded CU32 (VInt z)
| B_s32 z : bounded CS32 (VInt z)
| B_u64 z : bounded CU64 (VInt z)
| B_s64 z : bounded CS64 (VInt z)
| B_bool b : bounded CBool (VBool b)
| B_opaque n bs : bounded (COpaque n) (VArr bs)
| B_varopaque m o : within m (zlen (bytes_of o)) -> bounded (CVarOpaque m) (VBytes o)
| B_string m bs : within m (zlen bs) -> bounded (CString m) (VStr bs)
| B_vararray m t o : within m (zlen (elems o)) -> boundeds t (elems o) ->
    bounded (CVarArray m t) (VSlice o)
| B_absent t : bounded (CPtr t) (VPtr None)
| B_present t v : bounded t v -> bounded (CPtr t) (VPtr (Some v))
| B_struct fs l : bounded_fields fs l -> bounded (CStruct fs) (VStruct l)
| B_union_arm sw st arms def l dv d f t v :
    lookup sw l = Some dv -> bounded st dv -> disc_of dv = Some d ->
    pick_arm d arms def = Some (Some (f, t)) -> lookup f l = Some v -> bounded t v ->
    bounded (CUnion sw st arms def) (VStruct l)
| B_union_void sw st arms def l dv d :
    lookup sw l = Some dv -> bounded st dv -> disc_of dv = Some d ->
    (pick_arm d arms def = Some None
     \/ (pick_arm d arms def = None /\ union_listed p = false)) ->
    bounded (CUnion sw st arms def) (VStruct l)
| B_ident x t v : lookup x E = Some t -> bounded t v -> bounded (CIdent x) v
with boundeds : cty -> list val -> Prop :=
| Bs_nil t : boundeds t []
| Bs_cons t v l : bounded t v -> boundeds t l -> boundeds t (v :: l)
with bounded_fields : list (string * cty) -> list (string * val) -> Prop :=
| BF_nil l : bounded_fields [] l
| BF_cons f t fs l v : lookup f l = Some v -> bounded t v -> bounded_fields fs l ->
    bounded_fields ((f, t) :: fs) l.
End Bounded.

Scheme bounded_mind := Minimality for bounded Sort Prop
  with boundeds_mind := Minimality for boundeds Sort Prop
  with bounded_fields_mind := Minimality for bounded_fields Sort Prop.
Combined Scheme bounded_mutind from bounded_mind, boundeds_mind, bounded_fields_mind.
