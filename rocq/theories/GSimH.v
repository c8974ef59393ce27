(** The runs of GSimK.v are those of GoSemH.v and Heap.v: a call of a generated method in memory
    is [hxdr]. *)
From Coq Require Import Lia.
From Verif Require Import GoLex XLex Gram GParse Emit Bytes XdrLib Types Interp Meta GoAst GoSem Heap HeapP GoSemH GElab GSimA GSimB GSimC GSimK GoSemHP.
Open Scope string_scope.
Open Scope Z_scope.
Open Scope list_scope.

Section Eq.
Variable grow : nat -> nat -> nat.

(** ** [hxdr] *)
Lemma on_eq (X : hcode) (Y : kst -> hval -> outcome (kst * hval)) h s v f : (forall h s v, Y (h, s) v = X h s v) -> onK_field Y (h, s) v f = hon_field X h s v f.
Proof. intros H. unfold onK_field, hon_field. destruct v; try reflexivity. destruct (lookup f l); [|reflexivity]. rewrite H. destruct (X h s h0) as [[[? ?] ?]| |]; reflexivity. Qed.
Lemma fields_eq (X : cty -> hcode) (Y : cty -> kst -> hval -> outcome (kst * hval)) : (forall t h s v, Y t (h, s) v = X t h s v) ->
  forall fs h s v, xdrK_fields Y fs (h, s) v = hxdr_fields X fs h s v.
Proof.
  intros H fs. induction fs as [|[f t] fs IH]; intros h s v; [reflexivity|]. cbn [xdrK_fields hxdr_fields]. rewrite (on_eq (X t)) by apply H.
  destruct (hon_field (X t) h s v f) as [[[h1 s1] v1]| |]; cbn [obind]; [apply IH|reflexivity..].
Qed.
Lemma elems_eq (X : hcode) (Y : kst -> hval -> outcome (kst * hval)) : (forall h s v, Y (h, s) v = X h s v) ->
  forall k l h s, xdrK_elems Y k l (h, s) = hxdr_elems X k l h s.
Proof.
  intros H k. induction k as [|k IH]; intros l h s; [reflexivity|]. destruct l as [|x l]; [reflexivity|]. cbn [xdrK_elems hxdr_elems]. rewrite H.
  destruct (X h s x) as [[[h1 s1] x1]| |]; cbn [obind]; [|reflexivity..]. rewrite IH. destruct (hxdr_elems X k l h1 s1) as [[[h2 s2] l2]| |]; reflexivity.
Qed.
Lemma xdrK_eq n : forall E t h s v, xdrK grow n E t (h, s) v = hxdr grow n E t h s v.
Proof.
  induction n as [|n IH]; intros E t h s v; [reflexivity|]. destruct t as [| | | | |k|m|m|m te|te|fs|sw st arms def|x].
  13:{ cbn [xdrK hxdr]. destruct v; destruct (lookup x E); try reflexivity; apply IH. }
  all: destruct v as [z|b|bs|o|bs|o|o|l]; try reflexivity; cbn [xdrK hxdr].
  - unfold KXdrU32. cbn [fst snd]. destruct (HXdrU32 grow h s z) as [[? ?] ?]. reflexivity.
  - unfold KXdrS32. cbn [fst snd]. destruct (HXdrS32 grow h s z) as [[? ?] ?]. reflexivity.
  - unfold KXdrU64. cbn [fst snd]. destruct (HXdrU64 grow h s z) as [[? ?] ?]. reflexivity.
  - unfold KXdrS64. cbn [fst snd]. destruct (HXdrS64 grow h s z) as [[? ?] ?]. reflexivity.
  - unfold KXdrBool. cbn [fst snd]. destruct (HXdrBool grow h s b) as [[? ?] ?]. reflexivity.
  - unfold KXdrArray. cbn [fst snd]. destruct (HXdrArray grow h s bs) as [[? ?] ?]. reflexivity.
  - unfold KXdrVarArray. cbn [fst snd]. destruct (HXdrVarArray grow h s (maxlen_of m) o) as [[? ?] ?]. reflexivity.
  - unfold KXdrString. cbn [fst snd]. destruct (HXdrString grow h s (maxlen_of m) bs) as [[? ?] ?]. reflexivity.
  - unfold KEncodingSetSize. cbn [fst snd]. destruct (HEncodingSetSize s 0 (zlen (helems o))) as [s1 sz0]. unfold KXdrU32. cbn [fst snd].
    destruct (HXdrU32 grow h s1 sz0) as [[h2 s2] sz]. cbn [fst snd]. destruct (match m with Some k => sz >? k | None => false end); [reflexivity|].
    unfold KDecoding. cbn [snd]. destruct (HDecoding s2).
    + destruct (hzero n E te) as [z|]; [|reflexivity]. rewrite (elems_eq (hxdr grow n E te)) by (intros; apply IH).
      destruct (hxdr_elems (hxdr grow n E te) (Z.to_nat sz) (repeat z (Z.to_nat sz)) h2 s2) as [[[? ?] ?]| |]; reflexivity.
    + rewrite (elems_eq (hxdr grow n E te)) by (intros; apply IH). destruct (hxdr_elems (hxdr grow n E te) (Z.to_nat sz) (helems o) h2 s2) as [[[? ?] ?]| |]; reflexivity.
  - unfold KEncoding, KXdrBool. cbn [fst snd].
    assert (D : forall h1 s1 o1, (if KDecoding (h1, s1)
      then let '(s2, opted) := HXdrBool grow (fst (h1, s1)) (snd (h1, s1)) false in
           if opted then match hzero n E te with Some z => '(s3, x3) <- xdrK grow n E te s2 z ;; Ret (s3, HPtr (Some x3)) | None => NoFuel end else Ret (s2, HPtr o1)
      else Ret ((h1, s1), HPtr o1)) =
      if HDecoding s1 then let '(h2, s2, opted) := HXdrBool grow h1 s1 false in
           if opted then match hzero n E te with Some z => 'r <- hxdr grow n E te h2 s2 z ;; match r with (h3, s3, x3) => Ret (h3, s3, HPtr (Some x3)) end | None => NoFuel end else Ret (h2, s2, HPtr o1)
      else Ret (h1, s1, HPtr o1)).
    { intros h1 s1 o1. unfold KDecoding. cbn [fst snd]. destruct (HDecoding s1); [|reflexivity]. destruct (HXdrBool grow h1 s1 false) as [[h2 s2] op]. destruct op; [|reflexivity].
      destruct (hzero n E te) as [z|]; [|reflexivity]. rewrite IH. destruct (hxdr grow n E te h2 s2 z) as [[[? ?] ?]| |]; reflexivity. }
    destruct (HEncoding s).
    + destruct (HXdrBool grow h s (match o with Some _ => true | None => false end)) as [[h1 s1] op]. destruct op.
      * destruct o as [x|]; [|reflexivity]. rewrite IH. destruct (hxdr grow n E te h1 s1 x) as [[[h2 s2] x2]| |]; cbn [obind]; [apply D|reflexivity..].
      * cbn [obind]. apply D.
    + cbn [obind]. apply D.
  - apply fields_eq. intros; apply IH.
  - rewrite (on_eq (hxdr grow n E st)) by (intros; apply IH). destruct (hon_field (hxdr grow n E st) h s (HStruct l) sw) as [[[h1 s1] v1]| |]; cbn [obind]; [|reflexivity..].
    destruct (hfield_disc v1 sw) as [d|]; [|reflexivity]. destruct (pick_arm d arms def) as [[[f t]|]|]; try reflexivity. apply on_eq. intros; apply IH.
Qed.

(** ** [execH] *)
Variable G : gpkg.
Lemma evK_eq n h s fr e : evK G n (h, s) fr e = evH G n s fr e.
Proof. induction e; cbn [evK evH]; rewrite ?IHe, ?IHe1, ?IHe2; reflexivity. Qed.
Lemma evvK_eq n h s fr e : evvK G n (h, s) fr e = evvH G n s fr e.
Proof. unfold evvK, evvH. rewrite evK_eq. reflexivity. Qed.
Lemma ev_boolK_eq n h s fr e : ev_boolK G n (h, s) fr e = ev_boolH G n s fr e.
Proof. unfold ev_boolK, ev_boolH. rewrite evvK_eq. reflexivity. Qed.
Lemma find_clauseK_eq n h s fr g cs : find_clauseK G n (h, s) fr g cs = find_clauseH G n s fr g cs.
Proof.
  induction cs as [|[[l ss] ft] cs IH]; [reflexivity|]. cbn [find_clauseK find_clauseH]. destruct l as [l|]; [|exact IH]. rewrite evvK_eq, IH. reflexivity.
Qed.
Lemma throughK_eq fr g f f' : (forall x, f x = f' x) -> throughK fr g f = throughH fr g f'.
Proof.
  intros H. unfold throughK, throughH. destruct g as [v|[p|]|p|]; try reflexivity; (destruct (some_or (loadH fr p) GStuck); try reflexivity; cbn [gbind]; rewrite H; destruct (f' a) as [[[? ?] ?]| | |]; reflexivity).
Qed.
Lemma lib_funK_eq fn h s m x : lib_funK grow fn (h, s) m x = lib_funH grow fn h s m x.
Proof.
  unfold lib_funK, lib_funH, KXdrU32, KXdrS32, KXdrU64, KXdrS64, KXdrBool, KXdrArray, KXdrVarArray, KXdrString. cbn [fst snd].
  destruct m as [m|], x as [z|b|bs|o|bs|o|o|l]; try reflexivity; repeat match goal with |- (if ?b then _ else _) = _ => destruct b end; try reflexivity;
    match goal with |- (let '(_, _) := ?o in _) = _ => destruct o as [[? ?] ?]; reflexivity end.
Qed.
Section Ex.
Variable X : heap -> hst -> hframe -> stmt -> gor (heap * hst * hframe).
Variable Y : kst -> hframe -> stmt -> gor (kst * hframe).
Hypothesis XY : forall h s fr st, Y (h, s) fr st = X h s fr st.
Lemma seqK_eq ss : forall h s fr, seqK Y (h, s) fr ss = seqH X h s fr ss.
Proof.
  induction ss as [|a ss IH]; intros h s fr; [reflexivity|]. cbn [seqK seqH]. rewrite XY. destruct (X h s fr a) as [[[? ?] ?]| | |]; cbn [gbind]; [apply IH|reflexivity..].
Qed.
Lemma blockK_eq h s fr ss : blockK Y (h, s) fr ss = blockH X h s fr ss.
Proof. unfold blockK, blockH. rewrite seqK_eq. destruct (seqH X h s fr ss) as [[[? ?] ?]| | |]; reflexivity. Qed.
Lemma loopK_eq n k x c ss : forall h s fr, loopK G Y n k x c ss (h, s) fr = loopH G X n k x c ss h s fr.
Proof.
  induction k as [|k IH]; intros h s fr; [reflexivity|]. cbn [loopK loopH]. rewrite ev_boolK_eq. destruct (ev_boolH G n s fr c) as [[]| | |]; try reflexivity. cbn [gbind].
  rewrite blockK_eq. destruct (blockH X h s fr ss) as [[[h1 s1] fr1]| | |]; try reflexivity. cbn [gbind]. destruct (incrH x fr1); try reflexivity. cbn [gbind]. apply IH.
Qed.
Lemma runK_eq cs : forall h s fr, runK Y (h, s) fr cs = runH X h s fr cs.
Proof.
  induction cs as [|[[l ss] ft] cs IH]; intros h s fr; [reflexivity|]. cbn [runK runH]. rewrite blockK_eq. destruct (blockH X h s fr ss) as [[[h1 s1] fr1]| | |]; try reflexivity. cbn [gbind].
  destruct ft; [apply IH|reflexivity].
Qed.
End Ex.
Lemma execK_eq n : forall h s fr st, execK grow G n (h, s) fr st = execH G grow n h s fr st.
Proof.
  induction n as [|n IH]; intros h s fr st; [reflexivity|]. cbn [execK execH].
  destruct st as [fn args|e m args|x t|x e|a b|ss|c a b|x init c ss|e cs].
  - destruct args as [|[x| | | | | | | | | | | | | | | |] args]; try reflexivity.
    destruct (string_dec x "xs") as [->|Hne].
    2: rewrite !NXS by exact Hne; reflexivity.
    destruct args as [|e1 [|e2 [|e3 args]]]; try reflexivity; rewrite !evvK_eq.
    + destruct (evvH G n s fr e1); try reflexivity. cbn [gbind]. apply throughK_eq. intros. apply lib_funK_eq.
    + destruct (evvH G n s fr e1) as [g1| | |]; try reflexivity. cbn [gbind]. destruct (evvH G n s fr e2); try reflexivity. cbn [gbind].
      destruct g1 as [[]| | |]; try reflexivity. apply throughK_eq. intros. apply lib_funK_eq.
  - destruct e as [x| | | | | | | | |t e| | | | | | |]; try reflexivity.
    + destruct (string_dec x "xs") as [->|Hne]; [|rewrite !NXS by exact Hne; reflexivity].
      destruct (String.eqb m "EncodingSetSize").
      * destruct args as [|p [|l [|e3 args]]]; try reflexivity. rewrite !evvK_eq. destruct (evvH G n s fr p); try reflexivity. cbn [gbind].
        destruct (evvH G n s fr l) as [gl| | |]; try reflexivity. cbn [gbind]. destruct gl as [[]| | |]; try reflexivity. apply throughK_eq. intros [] ; try reflexivity.
        unfold KEncodingSetSize. cbn [fst snd]. destruct (HEncodingSetSize s z0 z). reflexivity.
      * reflexivity.
    + destruct t as [| |[|x| | | |]| | |]; try reflexivity.
      destruct args as [|[y| | | | | | | | | | | | | | | |] args]; try reflexivity.
      destruct (string_dec y "xs") as [->|Hne]; [|rewrite !NXS by exact Hne; reflexivity].
      destruct args; [|reflexivity]. destruct (String.eqb m "Xdr"); [|reflexivity].
      destruct (lookup x (g_meths G)) as [body|]; [|reflexivity]. rewrite evvK_eq. destruct (evvH G n s fr e); try reflexivity. cbn [gbind].
      apply throughK_eq. intros x'. rewrite (blockK_eq (execH G grow n)) by apply IH. destruct (blockH (execH G grow n) h s (frame0H x') body) as [[[? ?] ?]| | |]; reflexivity.
  - reflexivity.
  - rewrite evvK_eq. reflexivity.
  - rewrite evK_eq, evvK_eq. reflexivity.
  - apply blockK_eq, IH.
  - rewrite ev_boolK_eq. destruct (ev_boolH G n s fr c) as [[]| | |]; try reflexivity; cbn [gbind]; [apply blockK_eq, IH|]. destruct b; [apply blockK_eq, IH|reflexivity].
  - rewrite evvK_eq. destruct (evvH G n s fr init) as [g| | |]; try reflexivity. cbn [gbind]. destruct g as [[]| | |]; try reflexivity.
    rewrite (loopK_eq (execH G grow n)) by apply IH. destruct (loopH G (execH G grow n) n n x c ss h s (pushH x (HInt z) fr)) as [[[? ?] ?]| | |]; reflexivity.
  - rewrite evvK_eq. destruct (evvH G n s fr e) as [g| | |]; try reflexivity. cbn [gbind]. rewrite find_clauseK_eq. destruct (find_clauseH G n s fr g cs) as [o| | |]; try reflexivity. cbn [gbind].
    destruct o; [apply runK_eq, IH|]. destruct (find_defaultH cs); [apply runK_eq, IH|reflexivity].
Qed.
Lemma callK_eq n x h s v : callK grow G n x (h, s) v = callH G grow n x h s v.
Proof.
  unfold callK, callH. destruct (lookup x (g_meths G)) as [body|]; [|reflexivity]. rewrite (blockK_eq (execH G grow n)) by apply execK_eq.
  destruct (blockH (execH G grow n) h s (frame0H v) body) as [[[? ?] ?]| | |]; reflexivity.
Qed.
End Eq.

(** A call of a generated method, in memory. *)
Theorem method_H fl ds E G : supported fl ds = Some (E, G) -> forall grow x c n h s v h' s' v', lookup x E = Some c ->
  hxdr grow n E (CIdent x) h s v = Ret (h', s', v') -> evt (fun m => callH G grow m x h s v = GRet (h', s', v')).
Proof.
  intros S grow x c n h s v h' s' v' F H. rewrite <- xdrK_eq in H. generalize (sim_method_K grow fl ds E G S x c n (h, s) v _ F H). apply evt_impl.
  intros m A. rewrite <- callK_eq. exact A.
Qed.
