(** C24, C25: the codec with Go's memory.  Vocabulary: Heap.v (memory is a list of byte
    blocks, a slice is block/offset/length/capacity, [hxdr] is the generated method over that
    memory, [grow] the capacity policy of append), HeapP.v ([differs_at], [in_spare]), HeapS.v
    ([pairwise]), HeapQ.v ([part_of], [later], [blank], [hwrites]). *)
From Verif Require Import Bytes XdrLib Types Interp Spec Runs Heap HeapP HeapS HeapQ.
Open Scope string_scope.
Open Scope Z_scope.
Open Scope list_scope.

(** Decoding into a value without slices: memory is not changed, the result is what the
    memory-less codec gives, and every slice in it is a part of the input buffer preceded by
    the length word that announces it, its capacity equal to its length; no two overlap. *)
Theorem C24_decoded_slices : forall grow, (forall c n, (n <= grow c n)%nat) ->
  forall n E t h b z h' s' v', svalid h b -> hslices z = [] ->
  hxdr grow n E t h (mkHst None true (Some b)) z = Ret (h', s', v') ->
  h' = h /\
  runs E t (MakeReader (sread h b)) (deref h z) (mkXst (h_err s') true (gread h (h_buf s'))) (deref h v') /\
  Forall (svalid h) (hslices v') /\ pairwise (hslices v') /\
  forall sl, In sl (hslices v') -> exists k, part_of b sl (4 + k) /\
    be_val (firstn 4 (skipn k (sread h b))) = Z.of_nat (sl_len sl).
Proof. exact c24_decode. Qed.
Print Assumptions C24_decoded_slices.

(** In any later memory such a slice reads whatever the buffer then holds at its place. *)
Theorem C24_shows_through : forall b sl k h2, part_of b sl k ->
  sread h2 sl = firstn (sl_len sl) (skipn k (sread h2 b)).
Proof. exact (fun b sl k h2 => part_read b sl k h2). Qed.
Print Assumptions C24_shows_through.

(** Apart from the contents of byte slices, nothing of a value is changed by any writes to
    memory: strings, fixed opaques, numbers, lengths, pointers stay. *)
Theorem C24_rest_unaffected : forall h h2 v, later h h2 -> Forall (svalid h) (hslices v) ->
  blank (deref h2 v) = blank (deref h v).
Proof. exact blank_later. Qed.
Print Assumptions C24_rest_unaffected.

(** Appending to a decoded slice changes no existing memory. *)
Theorem C24_append : forall grow, (forall c n, (n <= grow c n)%nat) ->
  forall h sl bs h' o', svalid h sl -> sl_cap sl = sl_len sl -> gappend grow h (Some sl) bs = (h', o') ->
  differs_at (fun _ _ => False) h h' /\ gread h' o' = sread h sl ++ bs.
Proof. exact c24_append. Qed.
Print Assumptions C24_append.

Example C24_ex : svalid [exh_buf] exh_b /\ (forall c n, (n <= exh_grow c n)%nat) /\
  hxdr exh_grow 3 [] exh_t [exh_buf] (mkHst None true (Some exh_b)) exh_z
  = Ret ([exh_buf], mkHst None true (Some (mkSl 0 29 1 2)),
         HStruct [("A", HBytes (Some (mkSl 0 5 5 5))); ("N", HStr [x68; x69]); ("B", HBytes (Some (mkSl 0 25 4 4)))]).
Proof. exact c24_ex. Qed.

(** A writer over any slice [o]: after any sequence of encodings of values whose bytes lie
    outside [o]'s spare capacity, WriteBuf is the bytes of [o] followed by the encodings. *)
Theorem C25_writer_extends : forall grow, (forall c n, (n <= grow c n)%nat) ->
  forall D E ts vs, wf_env D E -> Forall2 (fun t v => wf_ty D E t /\ zero D E t <> None) ts vs ->
  forall h o, gvalid h o ->
  Forall2 (fun t v => has_ty E t (deref h v) /\ bounded ENC E t (deref h v)) ts vs ->
  Forall (fun v => Forall (fun sl => svalid h sl /\
     forall i, (sl_off sl <= i < sl_off sl + sl_len sl)%nat -> ~ in_spare o (sl_blk sl) i) (hslices v)) vs ->
  exists h' o' ws, hwrites grow E ts vs h (mkHst None false o) h' (mkHst None false o') /\
    gread h' o' = gread h o ++ List.concat ws /\
    Forall2 (fun tv w => Wire ENC E (fst tv) (deref h (snd tv)) w) (combine ts vs) ws.
Proof. exact c25_extends. Qed.
Print Assumptions C25_writer_extends.

(** Whatever is written and whether or not it succeeds: no byte of existing memory changes
    outside [o]'s spare capacity; [o] itself still reads the same; with no spare capacity
    nothing at all changes. *)
Theorem C25_frame : forall grow, (forall c n, (n <= grow c n)%nat) ->
  forall E ts vs h o h' s', gvalid h o -> hwrites grow E ts vs h (mkHst None false o) h' s' ->
  differs_at (in_spare o) h h' /\ gread h' o = gread h o /\
  (gcap o = glen o -> differs_at (fun _ _ => False) h h').
Proof. exact c25_frame. Qed.
Print Assumptions C25_frame.

Example C25_ex : gvalid exh_mem (Some exh_o) /\ good 3 [] exh_t /\
  has_ty [] exh_t (deref exh_mem exh_v) /\ bounded ENC [] exh_t (deref exh_mem exh_v) /\
  Forall (fun sl => svalid exh_mem sl /\ forall i, (sl_off sl <= i < sl_off sl + sl_len sl)%nat -> ~ in_spare (Some exh_o) (sl_blk sl) i)
    (hslices exh_v).
Proof. exact c25_ex. Qed.

(** The condition on the value's bytes is needed: a value inside the spare capacity is
    overwritten by its own length word before it is copied. *)
Theorem C25_overlap_corrupts : exists h o sl h' o',
  gvalid h (Some o) /\ svalid h sl /\
  hwrites exh_grow [] [CVarOpaque None] [HBytes (Some sl)] h (mkHst None false (Some o)) h' (mkHst None false (Some o')) /\
  deref h (HBytes (Some sl)) = VBytes (Some [x11; x22; x33; x44]) /\
  gread h (Some o) = [] /\ gread h' (Some o') = [x00; x00; x00; x04; x00; x00; x00; x04].
Proof. exact c25_overlap. Qed.
Print Assumptions C25_overlap_corrupts.
