(** C65: the text of package xdr, run by the rules of Go, does what XdrLib.v says. *)
From Verif Require Import GoLex RepoText SrcText SrcAst SrcProg SrcTextP.
From Verif Require Import Bytes XdrLib Types Interp Heap HeapP SrcSem SrcLib SrcLibB SrcLibC.
Open Scope string_scope.
Open Scope Z_scope.
Open Scope list_scope.

(** The syntax trees that are run are the files /repo/xdr/{lib,helper,types}.go. *)
Theorem C65_text : is_source lib_go lib_prog /\ is_source helper_go helper_prog /\ is_source xtypes_go xtypes_prog /\
  xdr_pkg = f_decls lib_prog ++ f_decls helper_prog ++ f_decls xtypes_prog.
Proof. exact (conj lib_source (conj helper_source (conj xtypes_source eq_refl))). Qed.
Print Assumptions C65_text.

(** Below, [runs W grow ext n f args m r] means: function [f] of the package, called with [args] in memory [m], comes to an end
    with [r].  [n] bounds the depth of calls; [grow] is append's choice of a capacity; [ext] is the functions of other packages.
    A memory is [mkMem heap variables world].  A variable with [vstate s] is an XdrState with the fields [s], and [habs h s] is
    what XdrLib.v has for it.  [tstep X h s h' s']: of the memory there before, only the spare capacity of a writer's buffer and
    [X] may have changed; a reader's new buffer is a rest of the old one. *)

(** lib.go:74-89 on any slice that does not overlap the buffer. *)
Theorem C65_xdrRW : forall W grow ext, grows grow -> forall n h cs (w : W) p s o,
  nth_error cs p = Some (vstate s) -> gvalid h (h_buf s) -> gvalid h o -> clear s o ->
  exists h' s', runs W grow ext (S n) "xdrRW" [WPtr p; WSl o] (mkMem h cs w) (mkMem h' (set_nth cs p (vstate s')) w, []) /\
    xdrRW (habs h s) (gread h o) = (habs h' s', gread h' o) /\ tstep (into s o) h s h' s'.
Proof. exact xdrRW_runs. Qed.
Print Assumptions C65_xdrRW.

(** lib.go:91-103.  The result shares the reader's buffer, clipped. *)
Theorem C65_xdrR : forall W grow ext n h cs (w : W) p s z,
  nth_error cs p = Some (vstate s) -> gvalid h (h_buf s) -> 0 <= z -> h_reader s = true ->
  exists s' o, runs W grow ext (S n) "xdrR" [WPtr p; WNum "int" z] (mkMem h cs w) (mkMem h (set_nth cs p (vstate s')) w, [WSl o]) /\
    (exists X, xdrR (habs h s) z = (habs h s', X) /\ bytes_of X = gread h o /\ (h_buf s <> None -> X = option_map (sread h) o)) /\
    tstep none h s h s' /\ gvalid h o /\ (forall b i, inside o b i -> inside (h_buf s) b i) /\ gcap o = glen o.
Proof. exact xdrR_runs. Qed.
Print Assumptions C65_xdrR.

(** lib.go:105-189 and types.go: booleans and integers, whatever their value.  [on_variable] is the statement for a function that
    takes a state and a pointer to a variable. *)
Theorem C65_numbers : forall W grow ext, grows grow ->
  on_variable W grow ext "XdrBool" (fun p q => [p; q]) WBool XdrBool /\
  on_variable W grow ext "XdrS32" (fun p q => [p; q]) (WNum "int32") XdrS32 /\
  on_variable W grow ext "XdrU32" (fun p q => [p; q]) (WNum "uint32") XdrU32 /\
  on_variable W grow ext "XdrS64" (fun p q => [p; q]) (WNum "int64") XdrS64 /\
  on_variable W grow ext "XdrU64" (fun p q => [p; q]) (WNum "uint64") XdrU64 /\
  on_variable W grow ext "Bool.Xdr" (fun p q => [q; p]) WBool XdrBool /\
  on_variable W grow ext "Int32.Xdr" (fun p q => [q; p]) (WNum "int32") XdrS32 /\
  on_variable W grow ext "Uint32.Xdr" (fun p q => [q; p]) (WNum "uint32") XdrU32 /\
  on_variable W grow ext "Int64.Xdr" (fun p q => [q; p]) (WNum "int64") XdrS64 /\
  on_variable W grow ext "Uint64.Xdr" (fun p q => [q; p]) (WNum "uint64") XdrU64 /\
  on_variable W grow ext "Void.Xdr" (fun p q => [q; p]) (fun _ : unit => WStruct "Void" []) (fun s v => (s, v)).
Proof. exact numbers_run. Qed.
Print Assumptions C65_numbers.

(** lib.go:191-223.  After decoding, the slice shares the reader's buffer. *)
Theorem C65_var_array : forall W grow ext, grows grow -> forall n h cs (w : W) p q s o M,
  nth_error cs p = Some (vstate s) -> nth_error cs q = Some (WSl o) -> gvalid h (h_buf s) -> gvalid h o -> (h_reader s = false -> clear s o) ->
  exists h' s' o', runs W grow ext (S (S n)) "XdrVarArray" [WPtr p; WNum "int" M; WPtr q] (mkMem h cs w)
      (mkMem h' (set_nth (set_nth cs p (vstate s')) q (WSl o')) w, []) /\
    XdrVarArray (habs h s) M (option_map (sread h) o) = (habs h' s', option_map (sread h') o') /\
    tstep none h s h' s' /\
    (o' = o \/ (h_reader s = true /\ gvalid h' o' /\ forall b i, inside o' b i -> inside (h_buf s) b i)).
Proof. exact var_array_runs. Qed.
Print Assumptions C65_var_array.

(** lib.go:225-236 *)
Theorem C65_array : forall W grow ext, grows grow -> forall n h cs (w : W) p s o,
  nth_error cs p = Some (vstate s) -> gvalid h (h_buf s) -> gvalid h o -> clear s o ->
  exists h' s', runs W grow ext (S (S n)) "XdrArray" [WPtr p; WSl o] (mkMem h cs w) (mkMem h' (set_nth cs p (vstate s')) w, []) /\
    XdrArray (habs h s) (gread h o) = (habs h' s', gread h' o) /\ tstep (into s o) h s h' s'.
Proof. exact array_runs. Qed.
Print Assumptions C65_array.

(** lib.go:238-271 *)
Theorem C65_string : forall W grow ext, grows grow -> forall M,
  on_variable W grow ext "XdrString" (fun p q => [p; WNum "int" M; q]) WStr (fun s v => XdrString s M v).
Proof. exact string_runs. Qed.
Print Assumptions C65_string.

(** lib.go:21-72.  MakeReader and MakeWriter return a pointer to a new variable. *)
Theorem C65_state : forall W grow ext n h cs (w : W),
  (forall o, runs W grow ext (S n) "MakeReader" [WSl o] (mkMem h cs w) (mkMem h (cs ++ [vstate (mkHst None true o)]) w, [WPtr (List.length cs)]) /\
     habs h (mkHst None true o) = MakeReader (gread h o)) /\
  (forall o, runs W grow ext (S n) "MakeWriter" [WSl o] (mkMem h cs w) (mkMem h (cs ++ [vstate (mkHst None false o)]) w, [WPtr (List.length cs)]) /\
     habs h (mkHst None false o) = MakeWriter (gread h o)) /\
  forall p s, nth_error cs p = Some (vstate s) ->
    runs W grow ext (S n) "XdrState.Encoding" [WPtr p] (mkMem h cs w) (mkMem h cs w, [WBool (Encoding (habs h s))]) /\
    runs W grow ext (S n) "XdrState.Decoding" [WPtr p] (mkMem h cs w) (mkMem h cs w, [WBool (Decoding (habs h s))]) /\
    (exists o, runs W grow ext (S n) "XdrState.WriteBuf" [WPtr p] (mkMem h cs w) (mkMem h cs w, [WSl o]) /\ gread h o = WriteBuf (habs h s)) /\
    runs W grow ext (S n) "XdrState.Error" [WPtr p] (mkMem h cs w) (mkMem h cs w, [verr (Error (habs h s))]) /\
    (forall msg, exists s', runs W grow ext (S n) "XdrState.SetError" [WPtr p; WStr (str_bytes msg)] (mkMem h cs w) (mkMem h (set_nth cs p (vstate s')) w, []) /\
       habs h s' = SetError (habs h s) msg) /\
    (forall q z L, nth_error cs q = Some (WNum "uint32" z) -> gvalid h (h_buf s) ->
       exists s' z', runs W grow ext (S (S n)) "XdrState.EncodingSetSize" [WPtr p; WPtr q; WNum "int" L] (mkMem h cs w)
           (mkMem h (set_nth (set_nth cs p (vstate s')) q (WNum "uint32" z')) w, []) /\
         EncodingSetSize (habs h s) z L = (habs h s', z') /\ tstep none h s h s').
Proof. exact state_runs. Qed.
Print Assumptions C65_state.

(** helper.go, for a value whose Xdr method, of another package, does [F] to the state and the world. *)
Theorem C65_helper : forall W grow ext n h cs (w : W) i F, xdr_method W ext i F ->
  (exists h' cs' o, runs W grow ext (S (S n)) "EncodeBuf" [WObj i] (mkMem h cs w)
      (mkMem h' cs' (snd (F (MakeWriter []) w)), [WSl o; verr (x_err (fst (F (MakeWriter []) w)))]) /\
      gread h' o = x_buf (fst (F (MakeWriter []) w))) /\
  (forall o, gvalid h o -> exists h' cs', runs W grow ext (S (S n)) "DecodeBuf" [WSl o; WObj i] (mkMem h cs w)
      (mkMem h' cs' (snd (F (MakeReader (gread h o)) w)), [verr (x_err (fst (F (MakeReader (gread h o)) w)))])).
Proof. exact helper_runs. Qed.
Print Assumptions C65_helper.

(** A run of each kind. *)
Example C65_ex_write : let h := [[x01; x02; x03]] in let s := mkHst None false (Some (mkSl 0 0 2 3)) in
  exists h', runs unit exact_grow no_ext 3 "XdrVarArray" [WPtr 0; WNum "int" 5; WPtr 1] (mkMem h [vstate s; WSl (Some (mkSl 0 0 1 1))] tt)
    (mkMem h' [vstate (mkHst None false (Some (mkSl 5 0 10 10))); WSl (Some (mkSl 0 0 1 1))] tt, []) /\
  nth 5 h' [] = [x01; x02; x00; x00; x00; x01; x01; x00; x00; x00] /\
  clear s (Some (mkSl 0 0 1 1)) /\ gvalid h (h_buf s).
Proof. exact ex_write. Qed.
Example C65_ex_read : let h := [[x00; x00; x00; x02; x41; x42; x00; x00; x07]] in let s := mkHst None true (Some (mkSl 0 0 9 9)) in
  exists h', runs unit exact_grow no_ext 3 "XdrString" [WPtr 1; WNum "int" (-1); WPtr 0] (mkMem h [WStr [x43]; vstate s] tt)
    (mkMem h' [WStr [x41; x42]; vstate (mkHst None true (Some (mkSl 0 8 1 1)))] tt, []) /\ nth 0 h' [] = nth 0 h [].
Proof. exact ex_read. Qed.
Example C65_ex_short : let s := mkHst None true (Some (mkSl 0 0 3 3)) in
  exists h', runs unit exact_grow no_ext 4 "Uint32.Xdr" [WPtr 1; WPtr 0] (mkMem [[x01; x02; x03]] [vstate s; WNum "uint32" 9] tt)
    (mkMem h' [vstate (mkHst (Some (ENotEnoughGot 4 3)) true (Some (mkSl 0 3 0 0))); WNum "uint32" 9] tt, []).
Proof. exact ex_short. Qed.
(** EncodeBuf of a value that writes the number 258. *)
Example C65_ex_encode : xdr_method unit ext258 7 (fun s w => (fst (XdrU32 s 258), w)) /\
  exists h' cs' o, runs unit exact_grow ext258 4 "EncodeBuf" [WObj 7] (mkMem [] [] tt) (mkMem h' cs' tt, [WSl o; WNil]) /\
    gread h' o = [x00; x00; x01; x02].
Proof. exact ex_encode. Qed.
