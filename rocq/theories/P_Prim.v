(** C01, C02, C13, C20: the primitives of /repo/xdr/lib.go.
    [MakeReader b] / [MakeWriter b] (with no error) are the states of the API calls of
    the same name; [is_be k z w]: [w] is [k] bytes with base-256 value [z];
    [pad_ok n pad]: [pad] is 0-3 zero bytes taking [n] to a multiple of 4;
    [fits_max m n]: [n < 2^32], and [n <= m] unless [m] is negative (no limit). *)
From Verif Require Import Bytes XdrLib Types Interp Spec Runs Codec2 PrimProps Codec3 Ex.
Open Scope string_scope.
Open Scope Z_scope.
Open Scope list_scope.

Theorem C01_primitive_roundtrip : forall b rest,
  (forall v v0, exists w, XdrBool (MakeWriter b) v = (MakeWriter (b ++ w), v) /\
     XdrBool (MakeReader (w ++ rest)) v0 = (MakeReader rest, v)) /\
  (forall v v0, 0 <= v < 2 ^ 32 -> exists w, XdrU32 (MakeWriter b) v = (MakeWriter (b ++ w), v) /\
     XdrU32 (MakeReader (w ++ rest)) v0 = (MakeReader rest, v)) /\
  (forall v v0, - 2 ^ 31 <= v < 2 ^ 31 -> exists w, XdrS32 (MakeWriter b) v = (MakeWriter (b ++ w), v) /\
     XdrS32 (MakeReader (w ++ rest)) v0 = (MakeReader rest, v)) /\
  (forall v v0, 0 <= v < 2 ^ 64 -> exists w, XdrU64 (MakeWriter b) v = (MakeWriter (b ++ w), v) /\
     XdrU64 (MakeReader (w ++ rest)) v0 = (MakeReader rest, v)) /\
  (forall v v0, - 2 ^ 63 <= v < 2 ^ 63 -> exists w, XdrS64 (MakeWriter b) v = (MakeWriter (b ++ w), v) /\
     XdrS64 (MakeReader (w ++ rest)) v0 = (MakeReader rest, v)) /\
  (forall v v0, List.length v0 = List.length v -> exists w,
     XdrArray (MakeWriter b) v = (MakeWriter (b ++ w), v) /\
     XdrArray (MakeReader (w ++ rest)) v0 = (MakeReader rest, v)) /\
  (forall m v v0, zlen v < 2 ^ 32 -> (0 <= m -> zlen v <= m) -> exists w,
     XdrVarArray (MakeWriter b) m (Some v) = (MakeWriter (b ++ w), Some v) /\
     XdrVarArray (MakeReader (w ++ rest)) m v0 = (MakeReader rest, Some v)) /\
  (forall m v v0, zlen v < 2 ^ 32 -> (0 <= m -> zlen v <= m) -> exists w,
     XdrString (MakeWriter b) m v = (MakeWriter (b ++ w), v) /\
     XdrString (MakeReader (w ++ rest)) m v0 = (MakeReader rest, v)).
Proof. exact c01. Qed.
Print Assumptions C01_primitive_roundtrip.
Example C01_ex : zlen [x41; x42; x43; x44; x45] < 2 ^ 32 /\ zlen [x41; x42; x43; x44; x45] <= 5 /\
  XdrString (MakeWriter [x09]) 5 [x41; x42; x43; x44; x45]
  = (MakeWriter [x09; x00; x00; x00; x05; x41; x42; x43; x44; x45; x00; x00; x00],
     [x41; x42; x43; x44; x45]).
Proof. vm_compute. intuition congruence. Qed.

Theorem C02_primitive_wire_format : forall b,
  (forall v, exists w, XdrBool (MakeWriter b) v = (MakeWriter (b ++ w), v) /\
     is_be 4 (if v then 1 else 0) w) /\
  (forall v, 0 <= v < 2 ^ 32 -> exists w, XdrU32 (MakeWriter b) v = (MakeWriter (b ++ w), v) /\ is_be 4 v w) /\
  (forall v, - 2 ^ 31 <= v < 2 ^ 31 -> exists w, XdrS32 (MakeWriter b) v = (MakeWriter (b ++ w), v) /\
     is_be 4 (if v <? 0 then v + 2 ^ 32 else v) w) /\
  (forall v, 0 <= v < 2 ^ 64 -> exists w, XdrU64 (MakeWriter b) v = (MakeWriter (b ++ w), v) /\ is_be 8 v w) /\
  (forall v, - 2 ^ 63 <= v < 2 ^ 63 -> exists w, XdrS64 (MakeWriter b) v = (MakeWriter (b ++ w), v) /\
     is_be 8 (if v <? 0 then v + 2 ^ 64 else v) w) /\
  (forall v, exists pad, XdrArray (MakeWriter b) v = (MakeWriter (b ++ v ++ pad), v) /\
     pad_ok (List.length v) pad) /\
  (forall m v, zlen (bytes_of v) < 2 ^ 32 -> (0 <= m -> zlen (bytes_of v) <= m) -> exists hd pad,
     XdrVarArray (MakeWriter b) m v = (MakeWriter (b ++ hd ++ bytes_of v ++ pad), v) /\
     is_be 4 (zlen (bytes_of v)) hd /\ pad_ok (List.length (bytes_of v)) pad) /\
  (forall m v, zlen v < 2 ^ 32 -> (0 <= m -> zlen v <= m) -> exists hd pad,
     XdrString (MakeWriter b) m v = (MakeWriter (b ++ hd ++ v ++ pad), v) /\
     is_be 4 (zlen v) hd /\ pad_ok (List.length v) pad).
Proof. exact c02. Qed.
Print Assumptions C02_primitive_wire_format.
Example C02_ex : XdrS64 (MakeWriter []) (-2) = (MakeWriter [xff; xff; xff; xff; xff; xff; xff; xfe], -2)
  /\ is_be 8 (-2 + 2 ^ 64) [xff; xff; xff; xff; xff; xff; xff; xfe]
  /\ be_val [x01; x02; x03; x04] = 1 * 256 ^ 3 + 2 * 256 ^ 2 + 3 * 256 + 4.
Proof. vm_compute. intuition congruence. Qed.

(** C13.  Bounds of opaques and strings when encoding ... *)
Theorem C13_bound_opaque_encode : forall b m o,
  (fits_max m (zlen (bytes_of o)) -> exists w, XdrVarArray (MakeWriter b) m o = (MakeWriter (b ++ w), o)) /\
  (~ fits_max m (zlen (bytes_of o)) ->
     exists e, XdrVarArray (MakeWriter b) m o = (mkXst (Some e) false b, o)).
Proof. exact c13_opaque_enc. Qed.
Print Assumptions C13_bound_opaque_encode.
Example C13_ex_encode : fits_max 2 (zlen [x01; x02]) /\ ~ fits_max 2 (zlen [x01; x02; x03])
  /\ fits_max (-1) (zlen [x01; x02; x03]).
Proof. unfold fits_max. vm_compute. intuition congruence. Qed.

Theorem C13_bound_string_encode : forall b m o,
  (fits_max m (zlen o) -> exists w, XdrString (MakeWriter b) m o = (MakeWriter (b ++ w), o)) /\
  (~ fits_max m (zlen o) -> exists e, XdrString (MakeWriter b) m o = (mkXst (Some e) false b, o)).
Proof. exact c13_string_enc. Qed.
Print Assumptions C13_bound_string_encode.

(** ... and decoding: too large a length [be_val hd] is rejected with only the 4 length
    bytes consumed and the target unchanged. *)
Theorem C13_bound_opaque_decode : forall hd data pad rest m o, List.length hd = 4%nat ->
  (0 <= m < be_val hd ->
     exists e, XdrVarArray (MakeReader (hd ++ rest)) m o = (mkXst (Some e) true rest, o)) /\
  ((0 <= m -> be_val hd <= m) -> be_val hd = zlen data -> (List.length pad < 4)%nat ->
     zlen (data ++ pad) mod 4 = 0 ->
     XdrVarArray (MakeReader (hd ++ data ++ pad ++ rest)) m o = (MakeReader rest, Some data)).
Proof. exact c13_opaque_dec. Qed.
Print Assumptions C13_bound_opaque_decode.

Theorem C13_bound_string_decode : forall hd data pad rest m o, List.length hd = 4%nat ->
  (0 <= m < be_val hd ->
     exists e, XdrString (MakeReader (hd ++ rest)) m o = (mkXst (Some e) true rest, o)) /\
  ((0 <= m -> be_val hd <= m) -> be_val hd = zlen data -> (List.length pad < 4)%nat ->
     zlen (data ++ pad) mod 4 = 0 ->
     XdrString (MakeReader (hd ++ data ++ pad ++ rest)) m o = (MakeReader rest, data)).
Proof. exact c13_string_dec. Qed.
Print Assumptions C13_bound_string_decode.
Example C13_ex_decode :
  XdrString (MakeReader [x00; x00; x00; x02; x41; x42; x00; x00; x07]) 2 [] = (MakeReader [x07], [x41; x42])
  /\ exists e, XdrString (MakeReader [x00; x00; x00; x03; x41; x42; x43; x00]) 2 []
     = (mkXst (Some e) true [x41; x42; x43; x00], []).
Proof. vm_compute. split; [reflexivity|eexists; reflexivity]. Qed.

(** Arrays of other elements: encoding ... *)
Theorem C13_bound_array_encode : forall D E t k o, wf_env D E -> wf_ty D E (CVarArray (Some k) t) ->
  has_ty E (CVarArray (Some k) t) (VSlice o) ->
  exists b e, Encode E (CVarArray (Some k) t) (VSlice o) b e /\
    (zlen (elems o) < 2 ^ 32 -> zlen (elems o) <= k ->
     (forall x, In x (elems o) -> bounded ENC E t x) -> e = None) /\
    (k < zlen (elems o) -> e <> None).
Proof. exact c13_array_enc. Qed.
Print Assumptions C13_bound_array_encode.

(** ... decoding above the bound (the elements are not allocated: the target keeps its
    old slice) ... *)
Theorem C13_bound_array_decode : forall E t hd rest k o, List.length hd = 4%nat -> k < be_val hd ->
  exists e, runs E (CVarArray (Some k) t) (MakeReader (hd ++ rest)) (VSlice o)
              (mkXst (Some e) true rest) (VSlice o).
Proof. exact c13_array_dec. Qed.
Print Assumptions C13_bound_array_decode.

(** ... and up to the bound: [body] is any sequence of element encodings. *)
Theorem C13_bound_array_decode_ok : forall D E t m hd body rest l z,
  wf_env D E -> wf_ty D E (CVarArray m t) ->
  within m (zlen l) -> is_be 4 (zlen l) hd -> WireList DEC E t l body ->
  fresh E (CVarArray m t) z ->
  exists l', DecodeRest E (CVarArray m t) (hd ++ body ++ rest) z rest (VSlice (Some l')) /\
    sames E t l l'.
Proof. exact c13_array_dec_ok. Qed.
Print Assumptions C13_bound_array_decode_ok.
Example C13_ex_array : wf_env 5 ex_env /\ wf_ty 5 ex_env (CVarArray (Some 2) CU32) /\
  has_ty ex_env (CVarArray (Some 2) CU32) (VSlice (Some [VInt 1; VInt 2])) /\
  DecodeRest ex_env (CVarArray (Some 2) CU32) [x00; x00; x00; x01; x00; x00; x00; x07] (VSlice None)
    [] (VSlice (Some [VInt 7])).
Proof.
  split; [exact (proj1 ex_good)|]. split; [constructor; [cbn; lia|constructor|discriminate]|].
  split; [repeat constructor; vm_compute; congruence|]. exists 5%nat. reflexivity.
Qed.

Theorem C20_bool_decode : forall hd rest v0, List.length hd = 4%nat ->
  exists r, XdrBool (MakeReader (hd ++ rest)) v0 = (MakeReader rest, r) /\
    (r = false <-> hd = [x00; x00; x00; x00]).
Proof. exact c20. Qed.
Print Assumptions C20_bool_decode.
Example C20_ex : XdrBool (MakeReader [x00; x80; x00; x00; x05]) false = (MakeReader [x05], true).
Proof. reflexivity. Qed.

Theorem C20_bool_encode : forall b v,
  XdrBool (MakeWriter b) v
  = (MakeWriter (b ++ if v then [x00; x00; x00; x01] else [x00; x00; x00; x00]), v).
Proof. exact c20_w. Qed.
Print Assumptions C20_bool_encode.
