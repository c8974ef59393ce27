(** The statements of P_Src.v: package xdr as its text says. *)
From Verif Require Import GoLex SrcAst SrcProg.
From Verif Require Import Bytes XdrLib Types Interp Heap HeapP SrcSem SrcLib SrcLibB.
Open Scope string_scope.
Open Scope Z_scope.
Open Scope list_scope.

(** append makes room for at least what it must hold. *)
Definition grows (grow : nat -> nat -> nat) : Prop := forall c n, (n <= grow c n)%nat.
(** Function [f] of package xdr, called with [args] in memory [m], ends with [r]. *)
Definition runs W grow (ext : string -> list gv -> mem W -> outcome (mem W * list gv)) n f args (m : mem W) (r : mem W * list gv) : Prop :=
  run grow xdr_pkgs no_consts xdr_structs xdr_pkg ext n f args m = Ret r.
(** Function [f], given a state in variable [p] and a pointer to variable [q] with the value [v], does what [F] says. *)
Definition on_variable W grow ext {A} (f : string) (args : gv -> gv -> list gv) (rep : A -> gv) (F : xst -> A -> xst * A) : Prop :=
  forall n h cs (w : W) p q s v,
  nth_error cs p = Some (vstate s) -> nth_error cs q = Some (rep v) -> gvalid h (h_buf s) ->
  exists h' s' v', runs W grow ext (S (S (S n))) f (args (WPtr p) (WPtr q)) (mkMem h cs w)
      (mkMem h' (set_nth (set_nth cs p (vstate s')) q (rep v')) w, []) /\
    F (habs h s) v = (habs h' s', v') /\ tstep none h s h' s'.
(** The Xdr method of object [i], which another package defines, does [F] to the state and the world. *)
Definition xdr_method W (ext : string -> list gv -> mem W -> outcome (mem W * list gv)) (i : nat) (F : xst -> W -> xst * W) : Prop :=
  forall h cs w p s, nth_error cs p = Some (vstate s) -> gvalid h (h_buf s) ->
  exists h' s', ext ".Xdr" [WObj i; WPtr p] (mkMem h cs w) = Ret (mkMem h' (set_nth cs p (vstate s')) (snd (F (habs h s) w)), []) /\
    habs h' s' = fst (F (habs h s) w) /\ tstep none h s h' s'.

Lemma xdrRW_runs : forall W grow ext, grows grow -> forall n h cs (w : W) p s o,
  nth_error cs p = Some (vstate s) -> gvalid h (h_buf s) -> gvalid h o -> clear s o ->
  exists h' s', runs W grow ext (S n) "xdrRW" [WPtr p; WSl o] (mkMem h cs w) (mkMem h' (set_nth cs p (vstate s')) w, []) /\
    xdrRW (habs h s) (gread h o) = (habs h' s', gread h' o) /\ tstep (into s o) h s h' s'.
Proof. intros W grow ext G n h cs w p s o H1 H2 H3 H4. exact (RW_text grow G ext n (mkMem h cs w) p s o H1 H2 H3 H4). Qed.

Lemma hR_cap h s z : gvalid h (h_buf s) -> gcap (snd (hxdrR s z)) = glen (snd (hxdrR s z)).
Proof.
  intros Hb. unfold hxdrR. destruct (_ <? z); cbn [h_err hset_err]; [reflexivity|]. destruct (h_err s); [reflexivity|]. cbn [snd].
  destruct (h_buf s); reflexivity.
Qed.
Lemma xdrR_runs : forall W grow ext n h cs (w : W) p s z,
  nth_error cs p = Some (vstate s) -> gvalid h (h_buf s) -> 0 <= z -> h_reader s = true ->
  exists s' o, runs W grow ext (S n) "xdrR" [WPtr p; WNum "int" z] (mkMem h cs w) (mkMem h (set_nth cs p (vstate s')) w, [WSl o]) /\
    (exists X, xdrR (habs h s) z = (habs h s', X) /\ bytes_of X = gread h o /\ (h_buf s <> None -> X = option_map (sread h) o)) /\
    tstep none h s h s' /\ gvalid h o /\ (forall b i, inside o b i -> inside (h_buf s) b i) /\ gcap o = glen o.
Proof.
  intros W grow ext n h cs w p s z H1 H2 H3 H4. exists (fst (hxdrR s z)), (snd (hxdrR s z)).
  split; [exact (R_text grow ext n h cs w p s z H1 H2 H3)|].
  destruct (hR_step h s z H2 H3 H4) as (T1 & T2 & T3). split.
  - destruct (hR_rel h s z H2 H3) as [E|(E1 & _ & _ & E2 & E3)].
    + eexists. split; [exact E|]. split; [destruct (snd (hxdrR s z)); reflexivity|auto].
    + rewrite E3. eexists. split; [exact E2|]. split; [reflexivity|intros X; contradiction].
  - repeat (split; [assumption|]). eapply hR_cap; eassumption.
Qed.

Lemma on_num W grow ext {A} f (rep : A -> gv) F : num_text grow ext f rep F -> on_variable W grow ext f (fun p q => [p; q]) rep F.
Proof. intros H n h cs w p q s v H1 H2 H3. exact (H (S n) h cs w p q s v H1 H2 H3). Qed.
Lemma on_wrap W grow ext {A} f g (rep : A -> gv) F T t :
  find_fun xdr_pkg g = Some ([("v", EUn "*" (EId T)); PS "xs"], [], [SExpr (ECall (EId f) [EId "xs"; ECall (EParen (EUn "*" (EId t))) [EId "v"] false] false)]) ->
  (forall m args, builtin (W:=W) grow f m args = None) -> String.eqb f "v" = false -> String.eqb f "xs" = false ->
  num_text grow ext f rep F -> on_variable W grow ext g (fun p q => [q; p]) rep F.
Proof. intros H1 H2 H3 H4 H5. exact (wrap_text grow ext f g rep F T t H1 H2 H3 H4 H5). Qed.
Lemma on_void W grow ext : on_variable W grow ext "Void.Xdr" (fun p q => [q; p]) (fun _ : unit => WStruct "Void" []) (fun s v => (s, v)).
Proof.
  intros n h cs w p q s v H1 H2 H3. exists h, s, v. split; [|split; [reflexivity|apply tstep_refl; exact H3]].
  unfold runs. rewrite (set_same cs) by exact H1. rewrite (set_same cs) by exact H2. reflexivity.
Qed.

Lemma numbers_run : forall W grow ext, grows grow ->
  on_variable W grow ext "XdrBool" (fun p q => [p; q]) WBool XdrBool /\
  on_variable W grow ext "XdrS32" (fun p q => [p; q]) (WNum "int32") XdrS32 /\
  on_variable W grow ext "XdrU32" (fun p q => [p; q]) (WNum "uint32") XdrU32 /\
  on_variable W grow ext "XdrS64" (fun p q => [p; q]) (WNum "int64") XdrS64 /\
  on_variable W grow ext "XdrU64" (fun p q => [p; q]) (WNum "uint64") XdrU64 /\
  on_variable W grow ext "Bool.Xdr" (fun p q => [q; p]) WBool XdrBool /\
  on_variable W grow ext "Int32.Xdr" (fun p q => [q; p]) (WNum "int32") XdrS32 /\
  on_variable W grow ext "Uint32.Xdr" (fun p q => [q; p]) (WNum "uint32") XdrU32 /\
  on_variable W grow ext "Int64.Xdr" (fun p q => [q; p]) (WNum "int64") XdrS64 /\
  on_variable W grow ext "Uint64.Xdr" (fun p q => [q; p]) (WNum "uint64") XdrU64 /\
  on_variable W grow ext "Void.Xdr" (fun p q => [q; p]) (fun _ : unit => WStruct "Void" []) (fun s v => (s, v)).
Proof.
  intros W grow ext G.
  pose proof (Bool_text grow G ext) as B. pose proof (S32_text grow G ext) as S4. pose proof (U32_text grow G ext) as U4.
  pose proof (S64_text grow G ext) as S8. pose proof (U64_text grow G ext) as U8.
  split; [exact (on_num _ _ _ _ _ _ B)|]. split; [exact (on_num _ _ _ _ _ _ S4)|]. split; [exact (on_num _ _ _ _ _ _ U4)|].
  split; [exact (on_num _ _ _ _ _ _ S8)|]. split; [exact (on_num _ _ _ _ _ _ U8)|].
  split; [eapply on_wrap; [reflexivity|reflexivity|reflexivity|reflexivity|exact B]|].
  split; [eapply on_wrap; [reflexivity|reflexivity|reflexivity|reflexivity|exact S4]|].
  split; [eapply on_wrap; [reflexivity|reflexivity|reflexivity|reflexivity|exact U4]|].
  split; [eapply on_wrap; [reflexivity|reflexivity|reflexivity|reflexivity|exact S8]|].
  split; [eapply on_wrap; [reflexivity|reflexivity|reflexivity|reflexivity|exact U8]|].
  apply on_void.
Qed.

Lemma var_array_runs : forall W grow ext, grows grow -> forall n h cs (w : W) p q s o M,
  nth_error cs p = Some (vstate s) -> nth_error cs q = Some (WSl o) -> gvalid h (h_buf s) -> gvalid h o -> (h_reader s = false -> clear s o) ->
  exists h' s' o', runs W grow ext (S (S n)) "XdrVarArray" [WPtr p; WNum "int" M; WPtr q] (mkMem h cs w)
      (mkMem h' (set_nth (set_nth cs p (vstate s')) q (WSl o')) w, []) /\
    XdrVarArray (habs h s) M (option_map (sread h) o) = (habs h' s', option_map (sread h') o') /\
    tstep none h s h' s' /\
    (o' = o \/ (h_reader s = true /\ gvalid h' o' /\ forall b i, inside o' b i -> inside (h_buf s) b i)).
Proof. intros W grow ext G. exact (VarArray_text grow G ext). Qed.

Lemma array_runs : forall W grow ext, grows grow -> forall n h cs (w : W) p s o,
  nth_error cs p = Some (vstate s) -> gvalid h (h_buf s) -> gvalid h o -> clear s o ->
  exists h' s', runs W grow ext (S (S n)) "XdrArray" [WPtr p; WSl o] (mkMem h cs w) (mkMem h' (set_nth cs p (vstate s')) w, []) /\
    XdrArray (habs h s) (gread h o) = (habs h' s', gread h' o) /\ tstep (into s o) h s h' s'.
Proof. intros W grow ext G. exact (Array_text grow G ext). Qed.

Lemma string_runs : forall W grow ext, grows grow -> forall M,
  on_variable W grow ext "XdrString" (fun p q => [p; WNum "int" M; q]) WStr (fun s v => XdrString s M v).
Proof. intros W grow ext G M n h cs w p q s v H1 H2 H3. exact (String_text grow G ext (S n) h cs w p q s v M H1 H2 H3). Qed.

Lemma state_runs : forall W grow ext n h cs (w : W),
  (forall o, runs W grow ext (S n) "MakeReader" [WSl o] (mkMem h cs w) (mkMem h (cs ++ [vstate (mkHst None true o)]) w, [WPtr (List.length cs)]) /\
     habs h (mkHst None true o) = MakeReader (gread h o)) /\
  (forall o, runs W grow ext (S n) "MakeWriter" [WSl o] (mkMem h cs w) (mkMem h (cs ++ [vstate (mkHst None false o)]) w, [WPtr (List.length cs)]) /\
     habs h (mkHst None false o) = MakeWriter (gread h o)) /\
  forall p s, nth_error cs p = Some (vstate s) ->
    runs W grow ext (S n) "XdrState.Encoding" [WPtr p] (mkMem h cs w) (mkMem h cs w, [WBool (Encoding (habs h s))]) /\
    runs W grow ext (S n) "XdrState.Decoding" [WPtr p] (mkMem h cs w) (mkMem h cs w, [WBool (Decoding (habs h s))]) /\
    (exists o, runs W grow ext (S n) "XdrState.WriteBuf" [WPtr p] (mkMem h cs w) (mkMem h cs w, [WSl o]) /\ gread h o = WriteBuf (habs h s)) /\
    runs W grow ext (S n) "XdrState.Error" [WPtr p] (mkMem h cs w) (mkMem h cs w, [verr (Error (habs h s))]) /\
    (forall msg, exists s', runs W grow ext (S n) "XdrState.SetError" [WPtr p; WStr (str_bytes msg)] (mkMem h cs w) (mkMem h (set_nth cs p (vstate s')) w, []) /\
       habs h s' = SetError (habs h s) msg) /\
    (forall q z L, nth_error cs q = Some (WNum "uint32" z) -> gvalid h (h_buf s) ->
       exists s' z', runs W grow ext (S (S n)) "XdrState.EncodingSetSize" [WPtr p; WPtr q; WNum "int" L] (mkMem h cs w)
           (mkMem h (set_nth (set_nth cs p (vstate s')) q (WNum "uint32" z')) w, []) /\
         EncodingSetSize (habs h s) z L = (habs h s', z') /\ tstep none h s h s').
Proof.
  intros W grow ext n h cs w. split; [|split].
  - intros o. split; [apply MakeReader_text|reflexivity].
  - intros o. split; [apply MakeWriter_text|reflexivity].
  - intros p s Hc. split; [exact (Enc_text grow ext n h cs w p s Hc)|]. split; [exact (Dec_text grow ext n h cs w p s Hc)|].
    split; [exists (h_buf s); split; [exact (WriteBuf_text grow ext n h cs w p s Hc)|reflexivity]|].
    split; [exact (Error_text grow ext n h cs w p s Hc)|].
    split; [intros msg; exists (HSetError s msg); split; [exact (SetError_text grow ext n h cs w p s msg Hc)|reflexivity]|].
    intros q z L Hq Hb. exact (SetSize_text grow ext n h cs w p q s z L Hc Hq Hb).
Qed.

Lemma helper_runs : forall W grow ext n h cs (w : W) i F, xdr_method W ext i F ->
  (exists h' cs' o, runs W grow ext (S (S n)) "EncodeBuf" [WObj i] (mkMem h cs w)
      (mkMem h' cs' (snd (F (MakeWriter []) w)), [WSl o; verr (x_err (fst (F (MakeWriter []) w)))]) /\
      gread h' o = x_buf (fst (F (MakeWriter []) w))) /\
  (forall o, gvalid h o -> exists h' cs', runs W grow ext (S (S n)) "DecodeBuf" [WSl o; WObj i] (mkMem h cs w)
      (mkMem h' cs' (snd (F (MakeReader (gread h o)) w)), [verr (x_err (fst (F (MakeReader (gread h o)) w)))])).
Proof.
  intros W grow ext n h cs w i F HF. split.
  - exact (EncodeBuf_text grow ext n h cs w i F HF).
  - intros o Ho. exact (DecodeBuf_text grow ext n h cs w i F o HF Ho).
Qed.

(** ** Examples *)
Definition exact_grow (c n : nat) : nat := n.
Definition no_ext {W} : string -> list gv -> mem W -> outcome (mem W * list gv) := fun _ _ _ => Panic.
Lemma ex_write : let h := [[x01; x02; x03]] in let s := mkHst None false (Some (mkSl 0 0 2 3)) in
  exists h', runs unit exact_grow no_ext 3 "XdrVarArray" [WPtr 0; WNum "int" 5; WPtr 1] (mkMem h [vstate s; WSl (Some (mkSl 0 0 1 1))] tt)
    (mkMem h' [vstate (mkHst None false (Some (mkSl 5 0 10 10))); WSl (Some (mkSl 0 0 1 1))] tt, []) /\
  nth 5 h' [] = [x01; x02; x00; x00; x00; x01; x01; x00; x00; x00] /\
  clear s (Some (mkSl 0 0 1 1)) /\ gvalid h (h_buf s).
Proof.
  cbv zeta. eexists. split; [unfold runs; vm_compute; reflexivity|]. split; [reflexivity|]. split.
  - intros b i [-> H]. cbn in H. split; [|discriminate]. intros [_ [_ H2]]. cbn in H2. lia.
  - cbn. unfold svalid. cbn. lia.
Qed.
Lemma ex_read : let h := [[x00; x00; x00; x02; x41; x42; x00; x00; x07]] in let s := mkHst None true (Some (mkSl 0 0 9 9)) in
  exists h', runs unit exact_grow no_ext 3 "XdrString" [WPtr 1; WNum "int" (-1); WPtr 0] (mkMem h [WStr [x43]; vstate s] tt)
    (mkMem h' [WStr [x41; x42]; vstate (mkHst None true (Some (mkSl 0 8 1 1)))] tt, []) /\ nth 0 h' [] = nth 0 h [].
Proof. cbv zeta. eexists. split; [unfold runs; vm_compute; reflexivity|reflexivity]. Qed.
Lemma ex_short : let s := mkHst None true (Some (mkSl 0 0 3 3)) in
  exists h', runs unit exact_grow no_ext 4 "Uint32.Xdr" [WPtr 1; WPtr 0] (mkMem [[x01; x02; x03]] [vstate s; WNum "uint32" 9] tt)
    (mkMem h' [vstate (mkHst (Some (ENotEnoughGot 4 3)) true (Some (mkSl 0 3 0 0))); WNum "uint32" 9] tt, []).
Proof. cbv zeta. eexists. unfold runs; vm_compute; reflexivity. Qed.

(** An object whose Xdr method writes the number 258: var x uint32 = 258; xdr.XdrU32(xs, &x). *)
Definition ext258 (f : string) (args : list gv) (m : mem unit) : outcome (mem unit * list gv) :=
  match args with
  | [WObj _; WPtr p] =>
      '(m', _) <- run exact_grow xdr_pkgs no_consts xdr_structs xdr_pkg no_ext 2 "XdrU32" [WPtr p; WPtr (List.length (m_cells m))]
        (mkMem (m_heap m) (m_cells m ++ [WNum "uint32" 258]) (m_world m)) ;;
      Ret (mkMem (m_heap m') (firstn (List.length (m_cells m)) (m_cells m')) (m_world m'), [])
  | _ => Panic
  end.
Lemma set_nth_app {A} (l r : list A) n a : (n < List.length l)%nat -> set_nth (l ++ r) n a = set_nth l n a ++ r.
Proof. revert n. induction l as [|b l IH]; intros [|n] H; cbn in *; try lia; auto. f_equal. apply IH. lia. Qed.
Lemma set_nth_last {A} (l : list A) a b : set_nth (l ++ [a]) (List.length l) b = l ++ [b].
Proof. induction l as [|c l IH]; cbn; auto. f_equal. exact IH. Qed.
Lemma ex_encode : xdr_method unit ext258 7 (fun s w => (fst (XdrU32 s 258), w)) /\
  exists h' cs' o, runs unit exact_grow ext258 4 "EncodeBuf" [WObj 7] (mkMem [] [] tt) (mkMem h' cs' tt, [WSl o; WNil]) /\
    gread h' o = [x00; x00; x01; x02].
Proof.
  split.
  - intros h cs w p s Hc Hb. cbn [fst snd].
    assert (Hp : (p < List.length cs)%nat) by (apply nth_error_Some; congruence).
    destruct (U32_text exact_grow (fun c n => le_n n) no_ext 0%nat h (cs ++ [WNum "uint32" 258]) w p (List.length cs) s 258)
      as (h' & s' & v' & H1 & H2 & H3).
    + rewrite nth_error_app1 by exact Hp. exact Hc.
    + rewrite nth_error_app2, Nat.sub_diag by lia. reflexivity.
    + exact Hb.
    + exists h', s'. cbn [ext258 m_heap m_cells m_world]. rewrite H1. cbn [obind m_heap m_cells m_world].
      rewrite set_nth_app by exact Hp. rewrite <- (set_nth_len cs p (vstate s')) at 2. rewrite set_nth_last.
      rewrite <- (set_nth_len cs p (vstate s')) at 1. rewrite firstn_app, firstn_all, Nat.sub_diag. cbn [firstn]. rewrite app_nil_r.
      rewrite H2. auto.
  - do 3 eexists. split; [unfold runs; vm_compute; reflexivity|reflexivity].
Qed.
