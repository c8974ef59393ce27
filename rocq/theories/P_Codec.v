(** C03-C12, C14-C19, C21-C23: the generated codecs.

    [good D E t]: [E] is a set of type declarations the Go compiler accepts and [t] a type
    over it (names resolve, field names distinct, no type directly contains itself).
    [has_ty E t v]: [v] is a Go value of type [t].  [Encode], [Decode]: EncodeBuf and
    DecodeBuf return the given results; [DecodeRest] also shows the unread bytes
    (Runs.v).  [fresh E t z]: [z] is the value of a newly declared variable.
    [Wire p E t v b]: [b] is an RFC 4506 encoding of [v]; [p] is the RFC itself (RFC),
    what encoders may emit (ENC: also unlisted discriminants) or what decoders accept
    (DEC) (Spec.v).  [same]: equal in every wire-visible component; [canon]: no
    invisible data. *)
From Verif Require Import Bytes XdrLib Types Interp Spec Runs Codec Codec2 Codec3 Codec4 Codec5 Alloc Ex.
Open Scope string_scope.
Open Scope Z_scope.
Open Scope list_scope.

Theorem C03_encode_is_rfc4506 : forall D E t, good D E t -> forall v, has_ty E t v ->
  (exists b e, Encode E t v b e) /\
  (forall b e, Encode E t v b e -> e = None <-> bounded ENC E t v) /\
  (forall b, Encode E t v b None <-> Wire ENC E t v b) /\
  (forall b, bounded RFC E t v -> Encode E t v b None <-> Wire RFC E t v b).
Proof. exact g03. Qed.
Print Assumptions C03_encode_is_rfc4506.
Example C03_ex : good 5 ex_env ex_t /\ has_ty ex_env ex_t ex_v /\ Encode ex_env ex_t ex_v ex_b None.
Proof. exact (conj ex_good (conj ex_ty ex_encode)). Qed.

Theorem C04_roundtrip : forall D E t, good D E t -> forall v b rest z,
  has_ty E t v -> Encode E t v b None -> fresh E t z ->
  exists x, DecodeRest E t (b ++ rest) z rest x /\ same E t v x /\ canon E t x /\ has_ty E t x /\
    (canon E t v -> x = v).
Proof. exact g04. Qed.
Print Assumptions C04_roundtrip.
Example C04_ex : fresh ex_env ex_t ex_z /\
  DecodeRest ex_env ex_t (ex_b ++ [x07; x08]) ex_z [x07; x08] ex_x /\ ex_x <> ex_v.
Proof. split; [exact ex_fresh|]. split; [exact ex_decode|discriminate]. Qed.

Theorem C05_decode_encode_decode : forall D E t, good D E t -> forall b z x,
  fresh E t z -> Decode E t b z None x ->
  exists b', Encode E t x b' None /\ Decode E t b' z None x /\ DecodeRest E t b' z [] x.
Proof. exact g05. Qed.
Print Assumptions C05_decode_encode_decode.
(** The input [00 00 00 02 | ...] is not canonical: the boolean is 2. *)
Example C05_ex : Decode ex_env (CIdent "Strict") [x00; x00; x00; x02; x00; x00; x00; x01; x61; x01; x02; x03; x04]
    (VStruct [("Ok", VBool false); ("Body", VBytes None)]) None
    (VStruct [("Ok", VBool true); ("Body", VBytes (Some [x61]))]).
Proof. exists 5%nat. reflexivity. Qed.

Theorem C06_accepted_inputs : forall D E t, good D E t -> forall b z, fresh E t z ->
  (forall rest x, DecodeRest E t b z rest x <->
     exists w, b = w ++ rest /\ Wire DEC E t x w /\ canon E t x /\ has_ty E t x) /\
  (exists e x, Decode E t b z e x /\
     (e = None <-> exists w rest y, b = w ++ rest /\ Wire DEC E t y w /\ has_ty E t y)).
Proof. exact g06. Qed.
Print Assumptions C06_accepted_inputs.
Example C06_ex : exists e, Decode ex_env (CIdent "Strict") [x00; x00; x00; x01; x00; x00; x00; x09; x61]
    (VStruct [("Ok", VBool false); ("Body", VBytes None)]) (Some e)
    (VStruct [("Ok", VBool true); ("Body", VBytes None)]).
Proof. eexists. exists 5%nat. reflexivity. Qed.

Theorem C07_truncation : forall D E t, good D E t -> forall v b p c v0,
  has_ty E t v -> Encode E t v b None -> b = p ++ c -> c <> [] -> has_ty E t v0 ->
  exists e x, Decode E t p v0 (Some e) x.
Proof. exact g07. Qed.
Print Assumptions C07_truncation.
Example C07_ex : ex_b = firstn 30 ex_b ++ skipn 30 ex_b /\ skipn 30 ex_b <> [] /\
  has_ty ex_env ex_t ex_x.
Proof. split; [reflexivity|]. split; [discriminate|exact ex_x_ty]. Qed.

(** [encodable D E t v]: well-typed with all lengths in bounds. *)
Theorem C08_sequences : forall D E ts vs, Forall2 (encodable D E) ts vs -> forall b,
  exists w, runs_seq E ts (MakeWriter b) vs (MakeWriter (b ++ w)) vs /\
    forall rest zs, Forall2 (fresh E) ts zs ->
    exists xs, runs_seq E ts (MakeReader (w ++ rest)) zs (MakeReader rest) xs /\
      (forall i t v x, nth_error ts i = Some t -> nth_error vs i = Some v -> nth_error xs i = Some x ->
         same E t v x /\ (canon E t v -> x = v)) /\
      List.length xs = List.length vs.
Proof. exact c08. Qed.
Print Assumptions C08_sequences.
Example C08_ex : Forall2 (encodable 5 ex_env) [ex_t; CU32; CIdent "Color"] [ex_v; VInt 5; VInt 99].
Proof.
  constructor; [|constructor; [|constructor; [|constructor]]].
  - split; [exact ex_good|]. split; [exact ex_ty|].
    apply (proj1 (proj2 (C03_encode_is_rfc4506 5 ex_env ex_t ex_good ex_v ex_ty)) ex_b None ex_encode).
    reflexivity.
  - split; [split; [exact (proj1 ex_good)|split; [constructor|discriminate]]|].
    split; [constructor; lia|constructor].
  - split; [split; [exact (proj1 ex_good)|split; [econstructor; reflexivity|discriminate]]|].
    split; [econstructor; [reflexivity|constructor; lia]|econstructor; [reflexivity|constructor]].
Qed.

Theorem C09_multiple_of_four : forall D E t, good D E t -> forall v b,
  has_ty E t v -> Encode E t v b None -> zlen b mod 4 = 0.
Proof. exact g09. Qed.
Print Assumptions C09_multiple_of_four.
Example C09_ex : zlen ex_b = 64.
Proof. reflexivity. Qed.

Theorem C10_encode_appends : forall D E t, good D E t -> forall s v s' v',
  has_ty E t v -> x_reader s = false -> runs E t s v s' v' ->
  v' = v /\ exists w, WriteBuf s' = WriteBuf s ++ w.
Proof. exact g10. Qed.
Print Assumptions C10_encode_appends.
Example C10_ex : exists e, runs ex_env (CIdent "Shape") (MakeWriter [x01])
    (VStruct [("Kind", VInt 1); ("Radius", VInt 0); ("Sides", VSlice (Some (repeat (VInt 0) 5))); ("Name", VStr [])])
    (mkXst (Some e) false [x01; x00; x00; x00; x01; x00; x00; x00; x05])
    (VStruct [("Kind", VInt 1); ("Radius", VInt 0); ("Sides", VSlice (Some (repeat (VInt 0) 5))); ("Name", VStr [])]).
Proof. eexists. exists 5%nat. reflexivity. Qed.

Theorem C11_decode_consumes_prefix : forall E t b v s' x,
  runs E t (MakeReader b) v s' x -> exists w, b = w ++ x_buf s'.
Proof. exact c11_suffix. Qed.
Print Assumptions C11_decode_consumes_prefix.

Theorem C11_decode_local : forall D E t, good D E t -> forall b v rest x,
  DecodeRest E t b v rest x ->
  exists w, b = w ++ rest /\ forall rest', DecodeRest E t (w ++ rest') v rest' x.
Proof. exact g11_local. Qed.
Print Assumptions C11_decode_local.
Example C11_ex : DecodeRest ex_env ex_t (ex_b ++ [x07; x08]) ex_z [x07; x08] ex_x.
Proof. exact ex_decode. Qed.

(** [cs1 ++ cs2] is any sequence of codec calls with their targets; [s1] the state after
    [cs1].  If it has an error, the rest changes neither state nor targets. *)
Theorem C12_errors_sticky : forall D E n cs1 cs2 s s' cs', wf_env D E -> Forall (call_ok D E) cs2 ->
  run_calls n E (cs1 ++ cs2) s = Ret (s', cs') ->
  exists s1 a b, run_calls n E cs1 s = Ret (s1, a) /\ run_calls n E cs2 s1 = Ret (s', b) /\
    cs' = a ++ b /\ (Error s1 <> None -> s' = s1 /\ b = cs2) /\ (Error s' = None -> Error s1 = None).
Proof. exact c12. Qed.
Print Assumptions C12_errors_sticky.
Example C12_ex : exists s', Error s' <> None /\
  run_calls 9 ex_env [KU32 1; KGen ex_t ex_z; KBool true; KString 3 [x41]] (MakeReader [x00; x00; x00; x05; x01])
  = Ret (s', [KU32 5; KGen ex_t ex_z; KBool true; KString 3 [x41]]).
Proof. eexists. split; [|vm_compute; reflexivity]. discriminate. Qed.

(** [Ret]: returns normally (no [Panic]) for every sufficient bound on the call depth. *)
Theorem C14_decode_total : forall D E t, good D E t -> forall s v,
  x_reader s = true -> has_ty E t v ->
  exists N r, forall n, (N <= n)%nat -> xdr n E t s v = Ret r.
Proof. exact g14. Qed.
Print Assumptions C14_decode_total.
Example C14_ex : good 5 ex_env ex_t /\ x_reader (MakeReader [xff; xff; xff; xff; xff]) = true /\
  has_ty ex_env ex_t ex_v.
Proof. exact (conj ex_good (conj eq_refl ex_ty)). Qed.

Theorem C15_encode_total : forall D E t, good D E t -> forall s v,
  x_reader s = false -> has_ty E t v ->
  exists N r, forall n, (N <= n)%nat -> xdr n E t s v = Ret r.
Proof. exact g15. Qed.
Print Assumptions C15_encode_total.
Example C15_ex : good 5 ex_env ex_t /\ x_reader (MakeWriter [xff]) = false /\ has_ty ex_env ex_t ex_v.
Proof. exact (conj ex_good (conj eq_refl ex_ty)). Qed.

(** The bound [n] of [xdr n] is the call depth: [D] levels plus [D] per 4 input bytes. *)
Theorem C16_depth_bounded : forall D E t, good D E t -> forall b v n, has_ty E t v ->
  (D + List.length b / 4 * D <= n)%nat ->
  exists s' x, xdr n E t (MakeReader b) v = Ret (s', x).
Proof. exact g16. Qed.
Print Assumptions C16_depth_bounded.
Example C16_ex : good 5 ex_env ex_t /\ has_ty ex_env ex_t ex_z /\ (5 + List.length ex_b / 4 * 5 <= 85)%nat.
Proof. split; [exact ex_good|]. split; [exact ex_z_ty|]. vm_compute. lia. Qed.

(** A list of [k+1] nodes (8 bytes each) needs depth more than [k]. *)
Theorem C16_depth_needed : forall n k r, (n <= k)%nat ->
  xdr n list_env (CIdent "node") (MakeReader (chain k ++ r))
    (VStruct [("Val", VInt 0); ("Next", VPtr None)]) = NoFuel.
Proof. exact c16_deep. Qed.
Print Assumptions C16_depth_needed.
Example C16_ex_needed : List.length (chain 10) = 88%nat /\
  xdr 50 list_env (CIdent "node") (MakeReader (chain 10)) (VStruct [("Val", VInt 0); ("Next", VPtr None)]) <> NoFuel.
Proof. split; [reflexivity|]. vm_compute. discriminate. Qed.

(** [xdrA] is [xdr] with a log of the allocations made: [AElems max n] for make([]T, n) in
    a field declared T<max>, [ANew] for an optional, [ABytes n] for an n-byte string. *)
Theorem C17_allocation_bounds : forall n E t b v s' v' a,
  xdrA n E t (MakeReader b) v = Ret (s', v', a) ->
  xdr n E t (MakeReader b) v = Ret (s', v') /\ Forall alloc_ok a /\
  4 * zlen a + str_bytes a <= zlen b.
Proof. exact c17. Qed.
Print Assumptions C17_allocation_bounds.
Example C17_ex : exists s' v', xdrA 20 ex_env ex_t (MakeReader ex_b) ex_z
  = Ret (s', v', [AElems None 2; AElems (Some 4) 2; ABytes 2; ANew]).
Proof. eexists. eexists. vm_compute. reflexivity. Qed.

Theorem C17_allocation_defined : forall D E t b v, good D E t -> has_ty E t v ->
  exists n s' v' a, xdrA n E t (MakeReader b) v = Ret (s', v', a).
Proof. exact c17_defined. Qed.
Print Assumptions C17_allocation_defined.

Theorem C17_unbounded_array_allocation : forall D E t, good D E (CVarArray None t) ->
  exists n s' v' a, xdrA n E (CVarArray None t) (MakeReader [xff; xff; xff; xff]) (VSlice None)
    = Ret (s', v', AElems None (2 ^ 32 - 1) :: a).
Proof. exact c17_unbounded. Qed.
Print Assumptions C17_unbounded_array_allocation.
Example C17_ex_unbounded : good 5 ex_env (CVarArray None (CIdent "Shape")).
Proof.
  split; [exact (proj1 ex_good)|]. split; [|discriminate].
  constructor; [exact I|econstructor; reflexivity|discriminate].
Qed.

(** [no_ptr E t]: [t] has no optional outside slices. *)
Theorem C18_reuse_without_optionals : forall D E t, good D E t -> forall b u v, no_ptr E t ->
  has_ty E t u -> has_ty E t v ->
  exists e x y, Decode E t b u e x /\ Decode E t b v e y /\ (e = None -> same E t x y).
Proof. exact g18_no_ptr. Qed.
Print Assumptions C18_reuse_without_optionals.
Example C18_ex : no_ptr ex_env (CIdent "Shape") /\ has_ty ex_env (CIdent "Shape") ex_shape1 /\
  has_ty ex_env (CIdent "Shape") ex_shape2.
Proof.
  split; [|split].
  - econstructor; [reflexivity|]. constructor. intros f t H.
    repeat (destruct H as [H|H]; [injection H as <- <-; try constructor|]); [|contradiction].
    econstructor; [reflexivity|constructor].
  - apply (Check.has_tyb_sound 9). vm_compute. reflexivity.
  - apply (Check.has_tyb_sound 9). vm_compute. reflexivity.
Qed.

(** Targets without non-nil pointers (outside slices) are as good as fresh ones. *)
Theorem C18_reuse_nil_pointers : forall D E t, good D E t -> forall b u v x y,
  has_ty E t u -> has_ty E t v -> no_stale u = true -> no_stale v = true ->
  Decode E t b u None x -> Decode E t b v None y -> same E t x y.
Proof. exact g18_data. Qed.
Print Assumptions C18_reuse_nil_pointers.
Example C18_ex_nil : no_stale ex_z = true /\ no_stale ex_v = false.
Proof. split; reflexivity. Qed.

(** Otherwise the old pointer stays: an absent optional decodes to whatever was there. *)
Theorem C18_stale_optional : forall E t rest o,
  DecodeRest E (CPtr t) ([x00; x00; x00; x00] ++ rest) (VPtr o) rest (VPtr o).
Proof. exact c18_stale. Qed.
Print Assumptions C18_stale_optional.
Example C18_ex_stale : exists b u v x y,
  has_ty ex_env (CIdent "Node") u /\ has_ty ex_env (CIdent "Node") v /\
  Decode ex_env (CIdent "Node") b u None x /\ Decode ex_env (CIdent "Node") b v None y /\
  ~ same ex_env (CIdent "Node") x y.
Proof.
  exists [x00; x00; x00; x01; x00; x00; x00; x00],
    (VStruct [("Val", VInt 0); ("Next", VPtr None)]),
    (VStruct [("Val", VInt 0); ("Next", VPtr (Some (VStruct [("Val", VInt 3); ("Next", VPtr None)])))]),
    (VStruct [("Val", VInt 1); ("Next", VPtr None)]),
    (VStruct [("Val", VInt 1); ("Next", VPtr (Some (VStruct [("Val", VInt 3); ("Next", VPtr None)])))]).
  split; [apply (Check.has_tyb_sound 9); vm_compute; reflexivity|].
  split; [apply (Check.has_tyb_sound 9); vm_compute; reflexivity|].
  split; [exists 9%nat; reflexivity|]. split; [exists 9%nat; reflexivity|].
  intros H. inversion H as [| | | | | | | | | | | | | |x t v w Hx H1]; subst.
  injection Hx as <-. inversion H1 as [| | | | | | | | | | |fs l m H2| | |]; subst.
  inversion H2 as [|f t fs l m v w _ _ _ H3]; subst.
  inversion H3 as [|f1 t1 fs1 l1 m1 v1 w1 Hv Hw Hs _]; subst.
  cbn in Hv, Hw. injection Hv as <-. injection Hw as <-. inversion Hs.
Qed.

(** Encoders write zero padding (for composite types: C03 with [pad_zero ENC = true] in [Wire]).  Decoders
    return the same value for any two encodings of the same data. *)
Theorem C19_padding_zero : forall D E, wf_env D E ->
  (forall n bs b, List.length bs = n -> Encode E (COpaque n) (VArr bs) b None ->
     exists k, (k < 4)%nat /\ zlen b mod 4 = 0 /\ b = bs ++ repeat x00 k) /\
  (forall m o b, max_ok m -> Encode E (CVarOpaque m) (VBytes o) b None ->
     exists hd k, is_be 4 (zlen (bytes_of o)) hd /\ (k < 4)%nat /\ zlen b mod 4 = 0 /\ b = hd ++ bytes_of o ++ repeat x00 k) /\
  (forall m bs b, max_ok m -> Encode E (CString m) (VStr bs) b None ->
     exists hd k, is_be 4 (zlen bs) hd /\ (k < 4)%nat /\ zlen b mod 4 = 0 /\ b = hd ++ bs ++ repeat x00 k).
Proof. exact c19_zero. Qed.
Print Assumptions C19_padding_zero.
Theorem C19_padding_ignored : forall D E t, good D E t -> forall p q w w' rest v z,
  Wire p E t v w -> Wire q E t v w' -> fresh E t z ->
  exists x, DecodeRest E t (w ++ rest) z rest x /\ DecodeRest E t (w' ++ rest) z rest x /\
    same E t v x.
Proof. exact c19_eq. Qed.
Print Assumptions C19_padding_ignored.
Example C19_ex :
  Wire DEC ex_env (COpaque 1) (VArr [x05]) ([x05] ++ [x01; x02; x03]) /\
  Wire ENC ex_env (COpaque 1) (VArr [x05]) ([x05] ++ [x00; x00; x00]) /\
  DecodeRest ex_env (COpaque 1) [x05; x01; x02; x03] (VArr [x00]) [] (VArr [x05]).
Proof.
  split; [|split].
  - constructor; [reflexivity|]. split; [cbn; lia|]. split; [reflexivity|discriminate].
  - constructor; [reflexivity|]. split; [cbn; lia|]. split; [reflexivity|repeat constructor].
  - exists 1%nat. reflexivity.
Qed.

Theorem C19_padding_ignored_fixed : forall v v0 pad rest,
  List.length v0 = List.length v -> (List.length pad < 4)%nat -> zlen (v ++ pad) mod 4 = 0 ->
  XdrArray (MakeReader (v ++ pad ++ rest)) v0 = (MakeReader rest, v).
Proof. exact c19_fixed. Qed.
Print Assumptions C19_padding_ignored_fixed.

(** [selects d arms def r]: the declaration assigns arm [r] to discriminant [d] (Runs.v);
    [None]: it does not cover it; [Some None]: void.  [disc_val v d]: [v] is the Go
    value of discriminant [d]. *)
Theorem C21_union_arm : forall D E sw st arms def, wf_ty D E (CUnion sw st arms def) ->
  forall s l s' v', runs E (CUnion sw st arms def) s (VStruct l) s' v' ->
  exists dv s1 dv' d l', lookup sw l = Some dv /\ runs E st s dv s1 dv' /\
    v' = VStruct l' /\ disc_val dv' d /\ lookup sw l' = Some dv' /\
    ((exists f t x x', selects d arms def (Some (Some (f, t))) /\ lookup f l = Some x /\
        runs E t s1 x s' x' /\ lookup f l' = Some x' /\
        (forall g, g <> sw -> g <> f -> lookup g l' = lookup g l))
     \/ ((selects d arms def (Some None) \/ selects d arms def None) /\ s' = s1 /\
        (forall g, g <> sw -> lookup g l' = lookup g l))).
Proof. exact c21_run. Qed.
Print Assumptions C21_union_arm.
Example C21_ex : selects 2 [([0], Some ("Radius", CU64)); ([1; 2], Some ("Sides", CU32)); ([3], None)] None
    (Some (Some ("Sides", CU32))) /\
  selects 7 [([0], Some ("Radius", CU64)); ([1; 2], Some ("Sides", CU32)); ([3], None)] None None.
Proof.
  split.
  - apply (Sel_case _ _ _ [([0], Some ("Radius", CU64))] [1; 2] (Some ("Sides", CU32)) [([3], None)]).
    + reflexivity.
    + right. left. reflexivity.
    + intros ls a [H|[]]. injection H as <- <-. intros [H|[]]. discriminate.
  - constructor. intros ls a H K.
    repeat (destruct H as [H|H]; [injection H as <- <-; repeat (destruct K as [K|K]; [discriminate|]); exact K|]).
    exact H.
Qed.

Theorem C21_union_arm_runs : forall D E sw st arms def, wf_ty D E (CUnion sw st arms def) ->
  forall s l dv s1 dv' d f t x s' x',
  lookup sw l = Some dv -> runs E st s dv s1 dv' -> disc_val dv' d ->
  selects d arms def (Some (Some (f, t))) -> lookup f l = Some x -> runs E t s1 x s' x' ->
  exists v', runs E (CUnion sw st arms def) s (VStruct l) s' v'.
Proof. exact c21_arm. Qed.
Print Assumptions C21_union_arm_runs.

(** In particular an unlisted discriminant without default is accepted with empty body. *)
Theorem C21_union_void_runs : forall E sw st arms def s l dv s1 dv' d,
  lookup sw l = Some dv -> runs E st s dv s1 dv' -> disc_val dv' d ->
  (selects d arms def (Some None) \/ selects d arms def None) ->
  exists v', runs E (CUnion sw st arms def) s (VStruct l) s1 v'.
Proof. exact c21_void. Qed.
Print Assumptions C21_union_void_runs.

(** An enum is a named uint32 (with -unsigned-enum) or int32. *)
Theorem C22_enum_passthrough : forall E z rest v0, 0 <= z < 2 ^ 32 ->
  exists b, Encode E CU32 (VInt z) b None /\
    DecodeRest E CU32 (b ++ rest) (VInt v0) rest (VInt z).
Proof. exact c22. Qed.
Print Assumptions C22_enum_passthrough.
Theorem C22_enum_passthrough_signed : forall E z rest v0, - 2 ^ 31 <= z < 2 ^ 31 ->
  exists b, Encode E CS32 (VInt z) b None /\
    DecodeRest E CS32 (b ++ rest) (VInt v0) rest (VInt z).
Proof. exact c22_s. Qed.
Print Assumptions C22_enum_passthrough_signed.
Example C22_ex : Encode ex_env (CIdent "Color") (VInt 4000000000) [xee; x6b; x28; x00] None.
Proof. exists 2%nat. reflexivity. Qed.

Theorem C23_injective : forall D E t, good D E t -> forall v v' b b' r r',
  has_ty E t v -> has_ty E t v' -> Encode E t v b None -> Encode E t v' b' None ->
  b ++ r = b' ++ r' -> same E t v v' /\ b = b' /\ r = r'.
Proof. exact g23. Qed.
Print Assumptions C23_injective.
Example C23_ex : Encode ex_env ex_t ex_x ex_b None /\ Encode ex_env ex_t ex_v ex_b None /\ ex_x <> ex_v.
Proof. split; [exists 20%nat; vm_compute; reflexivity|]. split; [exact ex_encode|discriminate]. Qed.
