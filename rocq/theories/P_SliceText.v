(** C75: the emitted methods in memory, exactly: which slices a decoded value holds, what an
    encoding leaves in the buffer and in memory.

    [returnsH G grow x h s v r]: with enough fuel the method Xdr of [*x], run in the memory [h]
    (C74), returns [r].  [hxdr]: the interpreter of types in memory, of C24 and C25.
    [hslices v]: the byte slices in [v].  [part_of b sl k]: [sl] begins [k] bytes into [b], in
    the same block, within [b], with no spare capacity.  [pairwise]: no two overlap.
    [twrites]: methods called one after another on one state. *)
From Verif Require Import SrcLibC.
From Verif Require Import GoLex XLex Gram GParse Emit RepoText Bytes XdrLib Types Interp Spec Total Runs GoAst GoSem GoSemH GElab GoPkg GoWf RpcTypes GoRes GenCommitted GenText.
From Verif Require Import Heap HeapP HeapX HeapS HeapQ MsgTextE SliceText SliceTextE.
Open Scope string_scope.
Open Scope Z_scope.
Open Scope list_scope.

(** Every supported specification, every method, state, value, memory: what the text leaves in
    memory, the references in the value included, is what [hxdr] leaves. *)
Theorem C75_exact : forall fl src E P o P' p, ok_flags fl = true -> spec_prog fl src = Some (E, P) -> generate fl src = Some o -> declares p (files_of o) P' ->
  forall grow x c h s v n r, lookup x E = Some c -> hxdr grow n E (CIdent x) h s v = Ret r ->
  exists M, forall m, (M <= m)%nat -> callH (gp_pkg P') grow m x h s v = GRet r.
Proof. exact text_exact. Qed.
Print Assumptions C75_exact.

(** The committed packages; there [hxdr] returns always. *)
Theorem C75_rfc1057 : forall P, declares "rfc1057" [rfc1057_xdr_go; rfc1057_types_go] P -> forall grow, grows grow ->
  forall x h s v, In x (map fst rpc_env) -> has_ty rpc_env (CIdent x) (deref h v) -> gvalid h (h_buf s) -> safe h s v ->
  exists n r, hxdr grow n rpc_env (CIdent x) h s v = Ret r /\ returnsH (gp_pkg P) grow x h s v r.
Proof. exact rfc1057_exact. Qed.
Print Assumptions C75_rfc1057.
Theorem C75_rfc1813 : forall P, declares "rfc1813" [rfc1813_xdr_go; rfc1813_types_go] P -> forall grow, grows grow ->
  forall x h s v, In x (map fst rfc1813_env) -> has_ty rfc1813_env (CIdent x) (deref h v) -> gvalid h (h_buf s) -> safe h s v ->
  exists n r, hxdr grow n rfc1813_env (CIdent x) h s v = Ret r /\ returnsH (gp_pkg P) grow x h s v r.
Proof. exact rfc1813_exact. Qed.
Print Assumptions C75_rfc1813.

(** Decoding by the text into a value without byte slices: no byte of memory changes; each byte
    slice of the result is the part of the buffer after its length word, with no spare
    capacity, and no two overlap. *)
Theorem C75_decoded : forall fl src E P o P' p, ok_flags fl = true -> spec_prog fl src = Some (E, P) -> generate fl src = Some o -> declares p (files_of o) P' ->
  forall grow, grows grow -> forall x c h b z s1 v1, lookup x E = Some c -> svalid h b -> hslices z = [] ->
  runs E (CIdent x) (MakeReader (sread h b)) (deref h z) s1 v1 ->
  exists s' v', returnsH (gp_pkg P') grow x h (mkHst None true (Some b)) z (h, s', v') /\ habs h s' = s1 /\ deref h v' = v1 /\
    runs E (CIdent x) (MakeReader (sread h b)) (deref h z) (mkXst (h_err s') true (gread h (h_buf s'))) (deref h v') /\
    Forall (svalid h) (hslices v') /\ pairwise (hslices v') /\
    forall sl, In sl (hslices v') -> exists k, part_of b sl (4 + k) /\ be_val (firstn 4 (skipn k (sread h b))) = Z.of_nat (sl_len sl).
Proof. exact text_decode2. Qed.
Print Assumptions C75_decoded.
Theorem C75_decoded_rfc1057 : forall P, declares "rfc1057" [rfc1057_xdr_go; rfc1057_types_go] P -> forall grow, grows grow ->
  forall m x h b z h' s' v', In x (map fst rpc_env) -> has_ty rpc_env (CIdent x) (deref h z) -> svalid h b -> hslices z = [] ->
  callH (gp_pkg P) grow m x h (mkHst None true (Some b)) z = GRet (h', s', v') ->
  h' = h /\ runs rpc_env (CIdent x) (MakeReader (sread h b)) (deref h z) (mkXst (h_err s') true (gread h (h_buf s'))) (deref h v') /\
  Forall (svalid h) (hslices v') /\ pairwise (hslices v') /\
  forall sl, In sl (hslices v') -> exists k, part_of b sl (4 + k) /\ be_val (firstn 4 (skipn k (sread h b))) = Z.of_nat (sl_len sl).
Proof. exact (fun P D => exact_decode _ P (rfc1057_exact P D)). Qed.
Print Assumptions C75_decoded_rfc1057.
Theorem C75_decoded_rfc1813 : forall P, declares "rfc1813" [rfc1813_xdr_go; rfc1813_types_go] P -> forall grow, grows grow ->
  forall m x h b z h' s' v', In x (map fst rfc1813_env) -> has_ty rfc1813_env (CIdent x) (deref h z) -> svalid h b -> hslices z = [] ->
  callH (gp_pkg P) grow m x h (mkHst None true (Some b)) z = GRet (h', s', v') ->
  h' = h /\ runs rfc1813_env (CIdent x) (MakeReader (sread h b)) (deref h z) (mkXst (h_err s') true (gread h (h_buf s'))) (deref h v') /\
  Forall (svalid h) (hslices v') /\ pairwise (hslices v') /\
  forall sl, In sl (hslices v') -> exists k, part_of b sl (4 + k) /\ be_val (firstn 4 (skipn k (sread h b))) = Z.of_nat (sl_len sl).
Proof. exact (fun P D => exact_decode _ P (rfc1813_exact P D)). Qed.
Print Assumptions C75_decoded_rfc1813.

(** Encoding by the texts, several values one after another: the buffer is extended by their
    encodings, whatever append does about capacity; memory changes only in the spare capacity
    of the buffer, and the old buffer reads as before. *)
Theorem C75_encoded : forall fl src E P o P' p D, ok_flags fl = true -> spec_prog fl src = Some (E, P) -> generate fl src = Some o -> declares p (files_of o) P' ->
  forall grow, grows grow -> forall xs vs h b, Forall (fun x => good D E (CIdent x)) xs -> Forall (fun x => lookup x E <> None) xs -> gvalid h b ->
  Forall2 (fun x v => has_ty E (CIdent x) (deref h v) /\ bounded ENC E (CIdent x) (deref h v)) xs vs ->
  Forall (fun v => safe h (mkHst None false b) v) vs ->
  exists h' b' ws, twrites (gp_pkg P') grow xs vs h (mkHst None false b) h' (mkHst None false b') /\
    gread h' b' = gread h b ++ List.concat ws /\ differs_at (in_spare b) h h' /\ gread h' b = gread h b /\
    Forall2 (fun xv w => Wire ENC E (CIdent (fst xv)) (deref h (snd xv)) w) (combine xs vs) ws.
Proof. exact text_extends. Qed.
Print Assumptions C75_encoded.

(** A call body decoded by the committed text: the two authenticators' bytes are 24 and 36
    bytes into the buffer, each after its length word. *)
Example C75_ex_decoded : exists P h' s' v', declares "rfc1057" [rfc1057_xdr_go; rfc1057_types_go] P /\
  In "Call_body" (map fst rpc_env) /\ has_ty rpc_env (CIdent "Call_body") (deref [ex_cb] ex_cz) /\ svalid [ex_cb] (mkSl 0 1 41 41) /\ hslices ex_cz = [] /\
  callH (gp_pkg P) exact_grow 30 "Call_body" [ex_cb] (mkHst None true (Some (mkSl 0 1 41 41))) ex_cz = GRet (h', s', v') /\
  h_err s' = None /\ h_buf s' = Some (mkSl 0 41 1 1) /\ hslices v' = [mkSl 0 25 3 3; mkSl 0 37 4 4].
Proof. exact ex_two_slices. Qed.

(** Two authenticators encoded behind one byte: the first fills the spare capacity, the second
    moves the buffer to new blocks; the old ones stay. *)
Example C75_ex_encoded : exists P o, ok_flags (make_flags "rfc1057") = true /\ spec_prog (make_flags "rfc1057") rfc1057_prot_x = Some (rpc_env, P) /\
  generate (make_flags "rfc1057") rfc1057_prot_x = Some o /\ declares "rfc1057" (files_of o) P /\
  Forall (fun x => good rfc1813_D rpc_env (CIdent x)) ["Opaque_auth"; "Opaque_auth"] /\ Forall (fun x => lookup x rpc_env <> None) ["Opaque_auth"; "Opaque_auth"] /\
  gvalid ex_amem (Some (mkSl 0 0 1 13)) /\
  Forall2 (fun x v => has_ty rpc_env (CIdent x) (deref ex_amem v) /\ bounded ENC rpc_env (CIdent x) (deref ex_amem v)) ["Opaque_auth"; "Opaque_auth"] [ex_aval; ex_w2] /\
  Forall (fun v => safe ex_amem (mkHst None false (Some (mkSl 0 0 1 13))) v) [ex_aval; ex_w2] /\
  exists h' o', twrites (gp_pkg P) exact_grow ["Opaque_auth"; "Opaque_auth"] [ex_aval; ex_w2] ex_amem (mkHst None false (Some (mkSl 0 0 1 13))) h' (mkHst None false o') /\
    gread h' o' = [x11; x00; x00; x00; x05; x00; x00; x00; x03; x61; x62; x63; x00; x00; x00; x00; x00; x00; x00; x00; x00].
Proof. exact ex_two_writes. Qed.
