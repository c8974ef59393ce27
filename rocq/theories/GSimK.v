(** The emitted statements, run in memory (GoSemH.v), do exactly what [hxdr] of Heap.v does: the
    same memory, state and slices, not only the same bytes.  The proof is that of GSimA.v, GSimB.v
    and GSimC.v with memory and state carried as one pair; [xdrK] and [execK] are [hxdr] and
    [execH] over that pair (lemmas [xdrK_eq], [execK_eq]). *)
From Coq Require Import Lia Ascii.
From Verif Require Import GoLex XLex Gram GParse Emit Bytes XdrLib Types Interp Meta GoAst GoSem Heap HeapP GoSemH GElab GSimA GSimB GSimC.
Open Scope string_scope.
Open Scope Z_scope.
Open Scope list_scope.

Section Grow.
Variable grow : nat -> nat -> nat.
(** xdr/lib.go:9-271 over pairs of memory and state: the functions of Heap.v, which cites them one by one. *)
Definition kst : Type := (heap * hst)%type.
Definition KXdrU32 (s : kst) (z : Z) : kst * Z := HXdrU32 grow (fst s) (snd s) z.
Definition KXdrS32 (s : kst) (z : Z) : kst * Z := HXdrS32 grow (fst s) (snd s) z.
Definition KXdrU64 (s : kst) (z : Z) : kst * Z := HXdrU64 grow (fst s) (snd s) z.
Definition KXdrS64 (s : kst) (z : Z) : kst * Z := HXdrS64 grow (fst s) (snd s) z.
Definition KXdrBool (s : kst) (z : bool) : kst * bool := HXdrBool grow (fst s) (snd s) z.
Definition KXdrArray (s : kst) (z : list byte) : kst * list byte := HXdrArray grow (fst s) (snd s) z.
Definition KXdrVarArray (s : kst) (m : Z) (o : option slice) : kst * option slice := HXdrVarArray grow (fst s) (snd s) m o.
Definition KXdrString (s : kst) (m : Z) (z : list byte) : kst * list byte := HXdrString grow (fst s) (snd s) m z.
Definition KEncoding (s : kst) : bool := HEncoding (snd s).
Definition KDecoding (s : kst) : bool := HDecoding (snd s).
Definition KSetError (s : kst) (m : string) : kst := (fst s, HSetError (snd s) m).
Definition KEncodingSetSize (s : kst) (z len : Z) : kst * Z := let '(s', z') := HEncodingSetSize (snd s) z len in ((fst s, s'), z').

(** [&((v).F)] passed to code [X]. *)
Definition onK_field (X : kst -> hval -> outcome (kst * hval)) (s : kst) (v : hval) (f : string)
  : outcome (kst * hval) :=
  match v with
  | HStruct l =>
      match lookup f l with
      | Some x => '(s', x') <- X s x ;; Ret (s', HStruct (update f x' l))
      | None => Panic
      end
  | _ => Panic
  end.

(** out.go:274-283 typeStruct.goXdr: members in order. *)
Fixpoint xdrK_fields (X : cty -> kst -> hval -> outcome (kst * hval))
    (fs : list (string * cty)) (s : kst) (v : hval) : outcome (kst * hval) :=
  match fs with
  | [] => Ret (s, v)
  | (f, t) :: fs => '(s1, v1) <- onK_field (X t) s v f ;; xdrK_fields X fs s1 v1
  end.

(** out.go:82-84 the element loop [for i := uint64(0); i < uint64(__arraysz); i++];
    indexing past the end of the slice panics. *)
Fixpoint xdrK_elems (X : kst -> hval -> outcome (kst * hval)) (k : nat) (l : list hval) (s : kst)
  : outcome (kst * list hval) :=
  match k with
  | O => Ret (s, l)
  | S k =>
      match l with
      | [] => Panic
      | x :: l =>
          '(s1, x1) <- X s x ;;
          '(s2, l2) <- xdrK_elems X k l s1 ;;
          Ret (s2, x1 :: l2)
      end
  end.

Fixpoint xdrK (n : nat) (E : env) (t : cty) (s : kst) (v : hval) : outcome (kst * hval) :=
  match n with
  | O => NoFuel
  | S n =>
      match t, v with
      (* out.go:195-201, 479: xdr.XdrU32 / xdr.XdrS32 *)
      | CU32, HInt z => let '(s', z') := KXdrU32 s z in Ret (s', HInt z')
      | CS32, HInt z => let '(s', z') := KXdrS32 s z in Ret (s', HInt z')
      (* out.go:215-221 *)
      | CU64, HInt z => let '(s', z') := KXdrU64 s z in Ret (s', HInt z')
      | CS64, HInt z => let '(s', z') := KXdrS64 s z in Ret (s', HInt z')
      (* out.go:241-243 *)
      | CBool, HBool b => let '(s', b') := KXdrBool s b in Ret (s', HBool b')
      (* out.go:100-102 *)
      | COpaque _, HArr bs => let '(s', bs') := KXdrArray s bs in Ret (s', HArr bs')
      (* out.go:112-118 *)
      | CVarOpaque m, HBytes o =>
          let '(s', o') := KXdrVarArray s (maxlen_of m) o in Ret (s', HBytes o')
      (* out.go:128-134 *)
      | CString m, HStr bs =>
          let '(s', bs') := KXdrString s (maxlen_of m) bs in Ret (s', HStr bs')
      (* out.go:72-90 *)
      | CVarArray m te, HSlice o =>
          let '(s1, sz0) := KEncodingSetSize s 0 (zlen (helems o)) in
          let '(s2, sz) := KXdrU32 s1 sz0 in
          if match m with Some k => sz >? k | None => false end
          then Ret (KSetError s2 "array too large", HSlice o)
          else if KDecoding s2 then
            match hzero n E te with
            | None => NoFuel
            | Some z =>
                '(s3, l3) <- xdrK_elems (xdrK n E te) (Z.to_nat sz) (repeat z (Z.to_nat sz)) s2 ;;
                Ret (s3, HSlice (Some l3))
            end
          else
            '(s3, l3) <- xdrK_elems (xdrK n E te) (Z.to_nat sz) (helems o) s2 ;;
            Ret (s3, HSlice (match o with Some _ => Some l3 | None => None end))
      (* out.go:144-163 *)
      | CPtr te, HPtr o =>
          '(s1, o1) <-
            (if KEncoding s then
               let opted := match o with Some _ => true | None => false end in
               let '(s1, opted) := KXdrBool s opted in
               if opted then
                 match o with
                 | Some x => '(s2, x2) <- xdrK n E te s1 x ;; Ret (s2, Some x2)
                 | None => Panic
                 end
               else Ret (s1, o)
             else Ret (s, o)) ;;
          if KDecoding s1 then
            let '(s2, opted) := KXdrBool s1 false in
            if opted then
              match hzero n E te with
              | None => NoFuel
              | Some z => '(s3, x3) <- xdrK n E te s2 z ;; Ret (s3, HPtr (Some x3))
              end
            else Ret (s2, HPtr o1)
          else Ret (s1, HPtr o1)
      (* out.go:274-283 *)
      | CStruct fs, HStruct _ => xdrK_fields (xdrK n E) fs s v
      (* out.go:303-335 *)
      | CUnion sw st arms def, HStruct _ =>
          '(s1, v1) <- onK_field (xdrK n E st) s v sw ;;
          match hfield_disc v1 sw with
          | None => Panic
          | Some d =>
              match pick_arm d arms def with
              | Some (Some (f, t)) => onK_field (xdrK n E t) s1 v1 f
              | _ => Ret (s1, v1)
              end
          end
      (* out.go:342-344: method call on the named type *)
      | CIdent x, _ =>
          match lookup x E with
          | Some t => xdrK n E t s v
          | None => Panic
          end
      (* a value of another shape: excluded by Go's type checker *)
      | _, _ => Panic
      end
  end.


Section Sem.
Variable G : gpkg.
Fixpoint evK (n : nat) (s : kst) (fr : hframe) (e : expr) {struct e} : gor operandH :=
  match e with
  | EVar x =>
      match loc_findH x (hf_locs fr) with
      | Some k => GRet (HOPl (PLoc k))
      | None =>
          if String.eqb x "v" then GRet (HOVal (HGP (Some (PRecv []))))
          else if String.eqb x "xs" then GRet (HOVal HGX)
          else match cval G x with
               | Some z => GRet (HOVal (HGV (HInt z)))
               | None => if String.eqb x "nil" then GRet (HOVal (HGP None))
                         else if String.eqb x "true" then GRet (HOVal (HGV (HBool true)))
                         else if String.eqb x "false" then GRet (HOVal (HGV (HBool false))) else GStuck
               end
      end
  | ENum t => let! z := some_or (num_val t) GStuck in GRet (HOVal (HGV (HInt z)))
  | EStr _ => GStuck                                   (* only an argument of SetError *)
  | EParen e => evK n s fr e
  | EDeref e =>
      let! o := evK n s fr e in let! g := rvalH fr o in
      match g with HGP (Some p) => GRet (HOPl p) | HGP None => GPanic | _ => GStuck end
  | EAddr e => let! o := evK n s fr e in match o with HOPl p => GRet (HOVal (HGP (Some p))) | HOVal _ => GStuck end
  | ESel e f =>                                        (* a pointer is dereferenced *)
      let! o := evK n s fr e in let! g := rvalH fr o in
      match g with
      | HGP (Some p) => match sub p (PField f) with Some q => GRet (HOPl q) | None => GStuck end
      | HGP None => GPanic
      | _ => match o with HOPl p => match sub p (PField f) with Some q => GRet (HOPl q) | None => GStuck end | HOVal _ => GStuck end
      end
  | EIdx e i =>
      let! o := evK n s fr e in let! oi := evK n s fr i in let! gi := rvalH fr oi in let! g := rvalH fr o in
      match o, g, gi with
      | HOPl p, HGV (HSlice l), HGV (HInt k) =>
          if (0 <=? k) && (k <? zlen (helems l)) then match sub p (PIdx (Z.to_nat k)) with Some q => GRet (HOPl q) | None => GStuck end else GPanic
      | _, _, _ => GStuck
      end
  | EAll e => let! o := evK n s fr e in match o with HOPl p => GRet (HOVal (HGS p)) | HOVal _ => GStuck end
  | EConv t e => let! o := evK n s fr e in let! g := rvalH fr o in let! g := conv_valH t g in GRet (HOVal g)
  | ELen e =>
      let! o := evK n s fr e in let! g := rvalH fr o in
      match g with HGV (HSlice l) => GRet (HOVal (HGV (HInt (zlen (helems l))))) | _ => GStuck end
  | EMake t e =>
      let! o := evK n s fr e in let! g := rvalH fr o in
      match t, g with
      | GSlice t, HGV (HInt k) => let! z := some_or (gzeroH G n t) GOut in GRet (HOVal (HGV (HSlice (Some (repeat z (Z.to_nat k))))))
      | _, _ => GStuck
      end
  | ENew t => let! z := some_or (gzeroH G n t) GOut in GRet (HOVal (HGV (HPtr (Some z))))
  | EQuery x m =>
      match loc_findH x (hf_locs fr) with
      | Some _ => GStuck
      | None => if negb (String.eqb x "xs") then GStuck
                else if String.eqb m "Encoding" then GRet (HOVal (HGV (HBool (KEncoding s))))
                else if String.eqb m "Decoding" then GRet (HOVal (HGV (HBool (KDecoding s)))) else GStuck
      end
  | ENe a b =>                                         (* only pointers are compared so *)
      let! oa := evK n s fr a in let! ga := rvalH fr oa in let! ob := evK n s fr b in let! gb := rvalH fr ob in
      match ga, gb with
      | HGP p, HGP None => GRet (HOVal (HGV (HBool (match p with Some _ => true | None => false end))))
      | _, _ => GStuck
      end
  | EGt a b => let! oa := evK n s fr a in let! ga := rvalH fr oa in let! ob := evK n s fr b in let! gb := rvalH fr ob in compareH Z.gtb ga gb
  | ELt a b => let! oa := evK n s fr a in let! ga := rvalH fr oa in let! ob := evK n s fr b in let! gb := rvalH fr ob in compareH Z.ltb ga gb
  end.
Definition evvK (n : nat) (s : kst) (fr : hframe) (e : expr) : gor gvalH := let! o := evK n s fr e in rvalH fr o.
Definition ev_boolK (n : nat) (s : kst) (fr : hframe) (e : expr) : gor bool :=
  let! g := evvK n s fr e in match g with HGV (HBool b) => GRet b | _ => GStuck end.

(** ** Calls into the library and to other methods *)
(** The pointee of an argument, replaced by what [f] makes of it. *)
Definition throughK (fr : hframe) (g : gvalH) (f : hval -> gor (kst * hval)) : gor (kst * hframe) :=
  match g with
  | HGP (Some p) | HGS p =>
      let! x := some_or (loadH fr p) GStuck in
      let! (s, x) := f x in
      let! fr := some_or (storeH fr p x) GStuck in GRet (s, fr)
  | HGP None => GPanic
  | _ => GStuck
  end.
(** The functions of /repo/xdr/lib.go; [m] is the bound argument of the ones that have it. *)
Definition lib_funK (fn : string) (s : kst) (m : option Z) (x : hval) : gor (kst * hval) :=
  match m, x with
  | None, HInt z =>
      if String.eqb fn "XdrU32" then let '(s, z) := KXdrU32 s z in GRet (s, HInt z)
      else if String.eqb fn "XdrS32" then let '(s, z) := KXdrS32 s z in GRet (s, HInt z)
      else if String.eqb fn "XdrU64" then let '(s, z) := KXdrU64 s z in GRet (s, HInt z)
      else if String.eqb fn "XdrS64" then let '(s, z) := KXdrS64 s z in GRet (s, HInt z) else GStuck
  | None, HBool b => if String.eqb fn "XdrBool" then let '(s, b) := KXdrBool s b in GRet (s, HBool b) else GStuck
  | None, HArr bs => if String.eqb fn "XdrArray" then let '(s, bs) := KXdrArray s bs in GRet (s, HArr bs) else GStuck
  | Some m, HBytes o => if String.eqb fn "XdrVarArray" then let '(s, o) := KXdrVarArray s m o in GRet (s, HBytes o) else GStuck
  | Some m, HStr bs => if String.eqb fn "XdrString" then let '(s, bs) := KXdrString s m bs in GRet (s, HStr bs) else GStuck
  | _, _ => GStuck
  end.

(** The clause a switch starts with: the first one whose label equals [g], else the default.
    All clauses from there on are returned. *)
Fixpoint find_clauseK (n : nat) (s : kst) (fr : hframe) (g : gvalH) (cs : list (option expr * list stmt * bool)) : gor (option (list (option expr * list stmt * bool))) :=
  match cs with
  | [] => GRet None
  | ((Some l, _, _) :: r) as cs =>
      let! gl := evvK n s fr l in
      match g, gl with
      | HGV (HInt a), HGV (HInt b) => if a =? b then GRet (Some cs) else find_clauseK n s fr g r
      | HGV (HBool a), HGV (HBool b) => if Bool.eqb a b then GRet (Some cs) else find_clauseK n s fr g r
      | _, _ => GStuck
      end
  | (None, _, _) :: r => find_clauseK n s fr g r
  end.
Section Exec.
(** How a single statement runs. *)
Variable X : kst -> hframe -> stmt -> gor (kst * hframe).
(** Statements one after another. *)
Fixpoint seqK (s : kst) (fr : hframe) (ss : list stmt) : gor (kst * hframe) :=
  match ss with [] => GRet (s, fr) | a :: ss => let! (s, fr) := X s fr a in seqK s fr ss end.
(** A block: its variables end with it. *)
Definition blockK (s : kst) (fr : hframe) (ss : list stmt) : gor (kst * hframe) :=
  let! (s, fr') := seqK s fr ss in GRet (s, popH (depthH fr) fr').
Fixpoint loopK (n k : nat) (x : string) (c : expr) (ss : list stmt) (s : kst) (fr : hframe) : gor (kst * hframe) :=
  match k with
  | O => GOut
  | S k =>
      let! t := ev_boolK n s fr c in
      if t then let! (s, fr) := blockK s fr ss in let! fr := incrH x fr in loopK n k x c ss s fr
      else GRet (s, fr)
  end.
(** The clauses of a switch from the chosen one on. *)
Fixpoint runK (s : kst) (fr : hframe) (cs : list (option expr * list stmt * bool)) : gor (kst * hframe) :=
  match cs with
  | [] => GRet (s, fr)
  | (_, ss, ft) :: cs => let! (s, fr) := blockK s fr ss in if ft then runK s fr cs else GRet (s, fr)
  end.
End Exec.

Fixpoint execK (n : nat) (s : kst) (fr : hframe) (st : stmt) {struct n} : gor (kst * hframe) :=
  match n with
  | O => GOut
  | S n =>
      match st with
      | SPkg fn args =>
          match args with
          | EVar "xs" :: args =>
              match args with
              | [e] => let! g := evvK n s fr e in throughK fr g (lib_funK fn s None)
              | [b; e] => let! m := evvK n s fr b in let! g := evvK n s fr e in
                          match m with HGV (HInt m) => throughK fr g (lib_funK fn s (Some m)) | _ => GStuck end
              | _ => GStuck
              end
          | _ => GStuck
          end
      | SMeth (EVar "xs") m args =>
          if String.eqb m "EncodingSetSize" then
            match args with
            | [p; l] => let! gp := evvK n s fr p in let! gl := evvK n s fr l in
                        match gl with
                        | HGV (HInt len) => throughK fr gp (fun x => match x with HInt z => let '(s, z) := KEncodingSetSize s z len in GRet (s, HInt z) | _ => GStuck end)
                        | _ => GStuck
                        end
            | _ => GStuck
            end
          else if String.eqb m "SetError" then
            match args with [EStr t] => GRet (KSetError s t, fr) | _ => GStuck end
          else GStuck
      | SMeth (EConv (GPtr (GNamed x)) e) m args =>
          match args with
          | [EVar "xs"] =>
              if String.eqb m "Xdr" then
                match lookup x (g_meths G) with
                | None => GStuck
                | Some body =>
                    let! g := evvK n s fr e in
                    throughK fr g (fun x => let! (s, fr) := blockK (execK n) s (frame0H x) body in GRet (s, hf_recv fr))
                end
              else GStuck
          | _ => GStuck
          end
      | SMeth _ _ _ => GStuck
      | SVar x t => let! z := some_or (gzeroH G n t) GOut in GRet (s, pushH x z fr)
      | SDef x e => let! g := evvK n s fr e in match g with HGV v => GRet (s, pushH x v fr) | _ => GStuck end
      | SAssign a b =>
          let! o := evK n s fr a in let! g := evvK n s fr b in
          match o, g with HOPl p, HGV v => let! fr := some_or (storeH fr p v) GStuck in GRet (s, fr) | _, _ => GStuck end
      | SBlock ss => blockK (execK n) s fr ss
      | SIf c a b =>
          let! t := ev_boolK n s fr c in
          if t then blockK (execK n) s fr a else match b with Some b => blockK (execK n) s fr b | None => GRet (s, fr) end
      | SFor x init c ss =>
          let! g := evvK n s fr init in
          match g with
          | HGV (HInt z0) => let! (s, fr') := loopK (execK n) n n x c ss s (pushH x (HInt z0) fr) in GRet (s, popH (depthH fr) fr')
          | _ => GStuck
          end
      | SSwitch e cs =>
          let! g := evvK n s fr e in
          let! o := find_clauseK n s fr g cs in
          match o with
          | Some cs => runK (execK n) s fr cs
          | None => match find_defaultH cs with Some cs => runK (execK n) s fr cs | None => GRet (s, fr) end
          end
      end
  end.

(** A call of the generated method Xdr of [*x]: the state and the pointee afterwards. *)
Definition callK (n : nat) (x : string) (s : kst) (v : hval) : gor (kst * hval) :=
  match lookup x (g_meths G) with
  | None => GStuck
  | Some body => let! (s, fr) := blockK (execK n) s (frame0H v) body in GRet (s, hf_recv fr)
  end.
End Sem.

Lemma step_store_same_K v a x : step_loadH v a = Some x -> step_storeH v a x = Some v.
Proof.
  destruct v, a; cbn; try discriminate.
  - destruct o; discriminate.
  - destruct o as [l|]; [|discriminate]. intros H. rewrite (set_nth_same _ _ _ H). reflexivity.
  - destruct o; [|discriminate]. congruence.
  - destruct o; discriminate.
  - destruct o; discriminate.
  - destruct o; [|discriminate]. congruence.
  - intros H. rewrite H, update_id by exact H. reflexivity.
Qed.
Lemma step_store_some_K v a w x : step_loadH v a = Some w ->
  exists v', step_storeH v a x = Some v' /\ step_loadH v' a = Some x /\ forall y, step_storeH v' a y = step_storeH v a y.
Proof.
  intros H. destruct v as [z|b|l|o|l|o|o|l], a as [f|k|]; cbn in H; try discriminate; try (destruct o as [l|]; try discriminate).
  - cbn. destruct (set_nth_some k x l) as (l' & E & L & N); [apply nth_error_Some; congruence|]. rewrite E. cbn. eexists. split; [reflexivity|].
    split; [exact N|]. intros y. cbn. rewrite (set_nth_twice _ _ _ _ _ E). reflexivity.
  - cbn. eexists. split; [reflexivity|]. split; reflexivity.
  - cbn. rewrite H. eexists. split; [reflexivity|]. cbn. rewrite (lookup_update_same _ _ _ _ H). split; [reflexivity|]. intros y. rewrite update_twice. reflexivity.
Qed.
Lemma step_store_load_K v a x v' : step_storeH v a x = Some v' -> exists w, step_loadH v a = Some w.
Proof.
  destruct v as [z|b|l|o|l|o|o|l], a as [f|k|]; cbn; try discriminate; try (destruct o as [l|]; try discriminate).
  - destruct (set_nth k x l) eqn:E; [|discriminate]. intros _. apply set_nth_lt in E. destruct (nth_error l k) eqn:N; [eauto|]. apply nth_error_None in N. lia.
  - eauto.
  - destruct (lookup f l); [eauto|discriminate].
Qed.

Lemma path_store_some_K p : forall v w x, path_loadH v p = Some w ->
  exists v', path_storeH v p x = Some v' /\ path_loadH v' p = Some x /\ forall y, path_storeH v' p y = path_storeH v p y.
Proof.
  induction p as [|a p IH]; intros v w x H; cbn in *; [exists x; auto|].
  destruct (step_loadH v a) as [u|] eqn:E; [|discriminate]. destruct (IH _ _ x H) as (u' & S & L & Q). rewrite S.
  destruct (step_store_some_K v a u u' E) as (v' & S' & L' & Q'). exists v'. split; [exact S'|]. rewrite L'. split; [exact L|].
  intros y. rewrite Q. destruct (path_storeH u p y); [apply Q'|reflexivity].
Qed.
Lemma path_store_valid_K p : forall v x v', path_storeH v p x = Some v' -> exists w, path_loadH v p = Some w.
Proof.
  induction p as [|a p IH]; intros v x v' H; cbn in *; [eauto|]. destruct (step_loadH v a) as [u|]; [|discriminate].
  destruct (path_storeH u p x) eqn:E; [|discriminate]. eapply IH, E.
Qed.
Lemma path_store_same_K p : forall v w, path_loadH v p = Some w -> path_storeH v p w = Some v.
Proof.
  induction p as [|a p IH]; intros v w H; cbn in *; [congruence|]. destruct (step_loadH v a) as [u|] eqn:E; [|discriminate].
  rewrite (IH _ _ H). apply step_store_same_K, E.
Qed.
Lemma path_load_app_K p a : forall v, path_loadH v (p ++ [a]) = match path_loadH v p with Some w => step_loadH w a | None => None end.
Proof. induction p as [|b p IH]; intros v; cbn; [destruct (step_loadH v a); reflexivity|]. destruct (step_loadH v b); [apply IH|reflexivity]. Qed.
Lemma path_store_app_K p a x : forall v w u, path_loadH v p = Some w -> step_loadH w a = Some u ->
  path_storeH v (p ++ [a]) x = match step_storeH w a x with Some w' => path_storeH v p w' | None => None end.
Proof.
  induction p as [|b p IH]; intros v w u H1 H2; cbn in *; [injection H1 as ->; rewrite H2; destruct (step_storeH w a x); reflexivity|].
  destruct (step_loadH v b) as [y|]; [|discriminate]. rewrite (IH _ _ _ H1 H2). destruct (step_storeH w a x); reflexivity.
Qed.

(** ** Locals *)
Lemma loc_find_lt_K x l k : loc_findH x l = Some k -> (k < List.length l)%nat.
Proof. induction l as [|[y v] l IH]; cbn; [discriminate|]. destruct (String.eqb x y); [intros [= <-]; lia|]. intros H. apply IH in H. lia. Qed.
Lemma loc_get_push_K k y v l : (k < List.length l)%nat -> loc_getH k ((y, v) :: l) = loc_getH k l.
Proof. intros H. cbn. destruct (Nat.eqb_spec k (List.length l)); [lia|reflexivity]. Qed.
Lemma loc_get_top_K y v l : loc_getH (List.length l) ((y, v) :: l) = Some v.
Proof. cbn. rewrite Nat.eqb_refl. reflexivity. Qed.
Lemma loc_set_top_K y v x l : loc_setH (List.length l) x ((y, v) :: l) = Some ((y, x) :: l).
Proof. cbn. rewrite Nat.eqb_refl. reflexivity. Qed.
Lemma pop_push_K v locs x w : popH (List.length locs) (mkHF v ((x, w) :: locs)) = mkHF v locs.
Proof. unfold popH. cbn [hf_recv hf_locs List.length]. replace (S (List.length locs) - List.length locs)%nat with 1%nat by lia. reflexivity. Qed.
Lemma pop_same_K v locs : popH (List.length locs) (mkHF v locs) = mkHF v locs.
Proof. unfold popH. cbn [hf_recv hf_locs]. rewrite Nat.sub_diag. reflexivity. Qed.

(** The locals the emitted code has. *)
Definition oklocH (l : list (string * hval)) : Prop := forall x, In x (map fst l) -> In x ["i"; "opted"; "__arraysz"].
Lemma okloc_find_K l x : oklocH l -> ~ In x ["i"; "opted"; "__arraysz"] -> loc_findH x l = None.
Proof.
  intros H N. induction l as [|[y v] l IH]; [reflexivity|]. cbn. destruct (String.eqb_spec x y) as [->|_].
  - destruct N. apply H. left. reflexivity.
  - apply IH. intros z Z. apply H. right. exact Z.
Qed.
Lemma okloc_push_K l x v : oklocH l -> In x ["i"; "opted"; "__arraysz"] -> oklocH ((x, v) :: l).
Proof. intros H I y [<-|Y]; [exact I|apply H, Y]. Qed.
Lemma okloc_nil_K : oklocH []. Proof. intros x []. Qed.

(** ** The pointer expressions *)
Section Ptr.
Variable G : gpkg.
(** valPtr; [true] when it mentions i. *)
Inductive pexpr : bool -> expr -> Prop :=
| pe_v : pexpr false (EVar "v")
| pe_p : pexpr false (EAddr (ESel (EVar "v") "P"))
| pe_field b P n : pexpr b P -> pexpr b (fieldP P n)
| pe_elem b P : pexpr b P -> pexpr true (elemP P)
| pe_deref b P : pexpr b P -> pexpr b (derefP P).

(** [P] points to [path], whatever is there. *)
Definition ok_ptrH (v0 : hval) (locs : list (string * hval)) (P : expr) (path : list step) : Prop :=
  forall n s x v1, path_storeH v0 path x = Some v1 -> evvK G n s (mkHF v1 locs) P = GRet (HGP (Some (PRecv path))).

Lemma ok_ptr_now_K v0 locs P path n s w : ok_ptrH v0 locs P path -> path_loadH v0 path = Some w ->
  evvK G n s (mkHF v0 locs) P = GRet (HGP (Some (PRecv path))).
Proof. intros H L. eapply H. apply path_store_same_K, L. Qed.
Lemma ok_ptr_store_K v0 locs P path x v1 : ok_ptrH v0 locs P path -> path_storeH v0 path x = Some v1 -> ok_ptrH v1 locs P path.
Proof.
  intros H S n s y v2 S2. destruct (path_store_valid_K _ _ _ _ S) as (w & L). destruct (path_store_some_K _ _ _ x L) as (v' & S' & _ & Q).
  assert (v' = v1) by congruence. subst v'. apply (H n s y v2). rewrite <- Q. exact S2.
Qed.
Lemma store_load_K v p x v1 : path_storeH v p x = Some v1 -> path_loadH v1 p = Some x.
Proof. intros S. destruct (path_store_valid_K _ _ _ _ S) as (w & L). destruct (path_store_some_K _ _ _ x L) as (v' & S' & L' & _). congruence. Qed.
Lemma store_store_K v p x y v1 : path_storeH v p x = Some v1 -> path_storeH v1 p y = path_storeH v p y.
Proof. intros S. destruct (path_store_valid_K _ _ _ _ S) as (w & L). destruct (path_store_some_K _ _ _ x L) as (v' & S' & _ & Q). replace v1 with v' by congruence. apply Q. Qed.

Lemma evv_inv_K n s fr P g : evvK G n s fr P = GRet g -> exists o, evK G n s fr P = GRet o /\ rvalH fr o = GRet g.
Proof. unfold evvK. destruct (evK G n s fr P); cbn; try discriminate. eauto. Qed.

Lemma ok_field_K v0 locs P path n l x : ok_ptrH v0 locs P path -> path_loadH v0 path = Some (HStruct l) -> lookup (cap n) l = Some x ->
  ok_ptrH v0 locs (fieldP P n) (path ++ [PField (cap n)]).
Proof.
  intros H L F m s y v1 S. rewrite (path_store_app_K _ _ _ _ (HStruct l) x) in S by assumption. cbn [step_storeH] in S. rewrite F in S.
  destruct (evv_inv_K _ _ _ _ _ (H m s _ _ S)) as (o & E & R). unfold fieldP, evvK. cbn [evK]. rewrite E. cbn [gbind]. rewrite R. reflexivity.
Qed.
Lemma ok_v_p_K v0 locs l x : oklocH locs -> v0 = HStruct l -> lookup "P" l = Some x -> ok_ptrH v0 locs (EAddr (ESel (EVar "v") "P")) [PField "P"].
Proof. intros O -> F m s y v1 S. unfold evvK. cbn [evK hf_locs]. rewrite (okloc_find_K _ "v" O) by (cbn; intuition discriminate). reflexivity. Qed.
Lemma ok_v_K v0 locs : oklocH locs -> ok_ptrH v0 locs (EVar "v") [].
Proof. intros O m s y v1 S. unfold evvK. cbn [evK hf_locs]. rewrite (okloc_find_K _ "v" O) by (cbn; intuition discriminate). reflexivity. Qed.

Lemma ok_deref_K v0 locs P path x : ok_ptrH v0 locs P path -> path_loadH v0 path = Some (HPtr (Some x)) -> ok_ptrH v0 locs (derefP P) (path ++ [PDeref]).
Proof.
  intros H L m s y v1 S. rewrite (path_store_app_K _ PDeref _ _ _ x L eq_refl) in S. cbn [step_storeH] in S.
  destruct (evv_inv_K _ _ _ _ _ (H m s _ _ S)) as (o & E & R). unfold derefP, evvK. cbn [evK]. rewrite E. cbn [gbind]. rewrite R. cbn [gbind rvalH loadH hf_recv].
  rewrite (store_load_K _ _ _ _ S). reflexivity.
Qed.
Lemma ok_elem_K v0 locs P path l lv k x : ok_ptrH v0 locs P path -> path_loadH v0 path = Some (HSlice (Some l)) ->
  nth_error l k = Some x -> loc_findH "i" locs = Some lv -> loc_getH lv locs = Some (HInt (Z.of_nat k)) ->
  ok_ptrH v0 locs (elemP P) (path ++ [PIdx k]).
Proof.
  intros H L N F Q m s y v1 S. rewrite (path_store_app_K _ _ _ _ (HSlice (Some l)) x) in S by assumption. cbn [step_storeH] in S.
  destruct (set_nth k y l) as [l'|] eqn:T; [|discriminate]. cbn [option_map] in S.
  destruct (evv_inv_K _ _ _ _ _ (H m s _ _ S)) as (o & E & R). unfold elemP, evvK. cbn [evK]. rewrite E. cbn [gbind]. rewrite R. cbn [gbind hf_locs]. rewrite F.
  cbn [gbind rvalH loadH hf_locs hf_recv]. rewrite Q. cbn [gbind]. rewrite (store_load_K _ _ _ _ S). cbn [gbind helems sub].
  assert (Z.of_nat k <? zlen l' = true) as ->.
  { pose proof (set_nth_lt _ _ _ _ T). destruct (set_nth_some k y l) as (l2 & T2 & L2 & _); [assumption|]. replace l2 with l' in L2 by congruence. unfold zlen. apply Z.ltb_lt. lia. }
  assert (0 <=? Z.of_nat k = true) as -> by (apply Z.leb_le; lia). cbn [andb]. rewrite Nat2Z.id. reflexivity.
Qed.

(** A variable declared later does not change what [P] is, unless it is called [i] and [P] uses [i]. *)
Definition nolc (o : operandH) : Prop :=
  match o with HOPl (PLoc _) | HOVal (HGP (Some (PLoc _))) => False | _ => True end.
Lemma rval_push_K o v y w locs : nolc o -> rvalH (mkHF v ((y, w) :: locs)) o = rvalH (mkHF v locs) o.
Proof. destruct o as [[p|k]|[x|[[p|k]|]|p|]]; cbn; intros H; try reflexivity; destruct H. Qed.
Lemma rval_nolc_K fr o g : nolc o -> rvalH fr o = GRet g -> nolc (HOVal g).
Proof.
  destruct o as [[p|k]|g']; cbn [nolc]; intros H; [| |cbn; intros [= <-]; exact H]; [|destruct H].
  cbn. destruct (path_loadH (hf_recv fr) p) as [[| | | | | |o|]|]; try discriminate; try destruct o; intros [= <-]; exact I.
Qed.
Lemma ev_push_K b P y w v locs n s : pexpr b P -> oklocH locs -> y <> "v" -> (b = true -> y <> "i") ->
  evK G n s (mkHF v ((y, w) :: locs)) P = evK G n s (mkHF v locs) P /\
  forall o, evK G n s (mkHF v locs) P = GRet o -> nolc o.
Proof.
  intros D O Nv Ni. pose proof (okloc_find_K _ "v" O ltac:(cbn; intuition discriminate)) as Fv.
  destruct (String.eqb_spec "v" y) as [X|Ev]; [congruence|]. apply String.eqb_neq in Ev.
  induction D as [| |b P m D IH|b P D IH|b P D IH].
  - cbn [evK hf_locs loc_findH]. rewrite Ev, Fv. cbn. split; [reflexivity|]. intros o [= <-]. exact I.
  - cbn [evK hf_locs loc_findH]. rewrite Ev, Fv. cbn. split; [reflexivity|]. intros o [= <-]. exact I.
  - destruct (IH Ni) as (E & N). unfold fieldP. cbn [evK]. rewrite E. destruct (evK G n s (mkHF v locs) P) as [o| | |]; cbn [gbind]; try (split; [reflexivity|discriminate]).
    specialize (N o eq_refl). rewrite (rval_push_K _ _ _ _ _ N). destruct (rvalH (mkHF v locs) o) as [g| | |] eqn:R; cbn [gbind]; try (split; [reflexivity|discriminate]).
    split; [reflexivity|]. pose proof (rval_nolc_K _ _ _ N R) as Q.
    destruct g as [x|[[q|k]|]|q|]; cbn in Q; try destruct Q; destruct o as [[q'|k']|[x'|[[q'|k']|]|q'|]]; cbn in N; try destruct N; cbn; intros o'; try discriminate; intros [= <-]; exact I.
  - assert (Ni' : b = true -> y <> "i") by (intros _; apply Ni; reflexivity). destruct (IH Ni') as (E & N). unfold elemP. cbn [evK]. rewrite E.
    destruct (evK G n s (mkHF v locs) P) as [o| | |]; cbn [gbind]; try (split; [reflexivity|discriminate]).
    specialize (N o eq_refl). rewrite (rval_push_K _ _ _ _ _ N). destruct (rvalH (mkHF v locs) o) as [g| | |] eqn:R; cbn [gbind]; try (split; [reflexivity|discriminate]).
    pose proof (rval_nolc_K _ _ _ N R) as Q. destruct g as [x|[[q|k]|]|q|]; cbn in Q; try destruct Q; cbn [gbind]; try (split; [reflexivity|discriminate]).
    cbn [hf_locs loc_findH]. destruct (String.eqb_spec "i" y) as [X|_]; [destruct (Ni eq_refl); congruence|].
    destruct (loc_findH "i" locs) as [k|] eqn:F.
    + cbn [gbind rvalH loadH hf_locs]. rewrite (loc_get_push_K k y w locs (loc_find_lt_K _ _ _ F)). split.
      * destruct (loc_getH k locs) as [[]|]; reflexivity.
      * destruct (loc_getH k locs) as [x|]; [|discriminate]. destruct x as [z| | | | | |[o0|]|]; cbn [gbind sub]; try discriminate; cbn [hf_recv];
          destruct (path_loadH v q) as [[| | | | |o1|[|]|]|]; cbn [gbind]; try discriminate.
        destruct ((0 <=? z) && (z <? zlen (helems o1))); cbn [gbind sub]; [|discriminate]. intros o' [= <-]. exact I.
    + replace ("i" =? "v")%string with false by reflexivity. replace ("i" =? "xs")%string with false by reflexivity.
      destruct (cval G "i") as [z|]; cbn [gbind]; [|split; [reflexivity|discriminate]].
      cbn [rvalH gbind loadH hf_recv sub]. split; [reflexivity|]. intros o'.
      destruct (path_loadH v q) as [[| | | | |o1|[|]|]|]; cbn [gbind]; try discriminate.
      destruct ((0 <=? z) && (z <? zlen (helems o1))); cbn [gbind]; [|discriminate]. intros [= <-]. exact I.
  - destruct (IH Ni) as (E & N). unfold derefP. cbn [evK]. rewrite E. destruct (evK G n s (mkHF v locs) P) as [o| | |]; cbn [gbind]; try (split; [reflexivity|discriminate]).
    specialize (N o eq_refl). rewrite (rval_push_K _ _ _ _ _ N). destruct (rvalH (mkHF v locs) o) as [g| | |] eqn:R; cbn [gbind]; try (split; [reflexivity|discriminate]).
    pose proof (rval_nolc_K _ _ _ N R) as Q. split; [reflexivity|]. destruct g as [x|[[q|k]|]|q|]; cbn in Q; try destruct Q; intros o'; try discriminate. intros [= <-]. exact I.
Qed.
Lemma ok_ptr_push_K v0 locs P path b y w : pexpr b P -> oklocH locs -> y <> "v" -> (b = true -> y <> "i") ->
  ok_ptrH v0 locs P path -> ok_ptrH v0 ((y, w) :: locs) P path.
Proof.
  intros D O Nv Ni H n s x v1 S. specialize (H n s x v1 S). destruct (ev_push_K b P y w v1 locs n s D O Nv Ni) as (E & N).
  unfold evvK in *. rewrite E. destruct (evK G n s (mkHF v1 locs) P) as [o| | |]; try discriminate. cbn [gbind] in *. rewrite rval_push_K; auto.
Qed.
End Ptr.

Section Names.
Variable fl : flags.
Variable ds : list defn.
Variable E : env.
Variable G : gpkg.
Hypothesis Hsup : supported fl ds = Some (E, G).
Let K := xconsts ds.
(** An identifier that is a constant of the package. *)
Lemma ev_const_K n st v locs s g k : oklocH locs -> named K s g = true -> xval_n K (S (List.length K)) s = Some k ->
  evK G n st (mkHF v locs) (EVar g) = GRet (HOVal (HGV (HInt k))).
Proof.
  intros O N H. pose proof (named_res _ _ _ _ Hsup _ _ N) as R. cbn [evK hf_locs].
  rewrite (okloc_find_K _ g O) by (intros I; apply R; cbn in *; tauto).
  destruct (String.eqb_spec g "v") as [->|_]; [destruct R; cbn; tauto|]. destruct (String.eqb_spec g "xs") as [->|_]; [destruct R; cbn; tauto|].
  unfold cval. erewrite const_val_mono; [reflexivity| |eapply (xval_go _ _ _ _ Hsup); eassumption]. pose proof (len_xconsts _ _ _ _ Hsup) as LL; fold K in LL. lia.
Qed.
Lemma ev_use_K n st v locs s k : oklocH locs -> use_ok K s = true -> xval K s = Some k ->
  evK G n st (mkHF v locs) (val_expr s) = GRet (HOVal (HGV (HInt k))).
Proof.
  intros O U H. unfold val_expr. unfold use_ok in U. unfold xval in H. destruct (head_is is_digit s).
  - cbn [evK]. rewrite H. reflexivity.
  - eapply ev_const_K; eassumption.
Qed.
Lemma ev_label_int_K n st v locs s k : oklocH locs -> label_ok K false s = true -> xlabel K s = Some k ->
  evK G n st (mkHF v locs) (val_expr (cap s)) = GRet (HOVal (HGV (HInt k))).
Proof.
  intros O L H. unfold label_ok in L. unfold xlabel in H. destruct (String.eqb s "TRUE"); [discriminate|]. destruct (String.eqb s "FALSE"); [discriminate|].
  cbn [orb negb andb] in L. unfold val_expr, xval in *. rewrite cap_digit. destruct (head_is is_digit s) eqn:D.
  - rewrite (digit_cap _ D). cbn [evK]. rewrite H. reflexivity.
  - eapply ev_const_K; eassumption.
Qed.
Lemma ev_pre_K n st v locs x g : oklocH locs -> In (x, g) [("nil", HGP None); ("true", HGV (HBool true)); ("false", HGV (HBool false))] ->
  evK G n st (mkHF v locs) (EVar x) = GRet (HOVal g).
Proof.
  intros O I. cbn [evK hf_locs]. rewrite (okloc_find_K _ x O) by (intros J; cbn in I, J; intuition congruence).
  assert (In x reserved) as R by (cbn in *; intuition congruence). rewrite (res_const _ _ _ _ Hsup _ R). cbn in I. intuition (match goal with H : (_, _) = _ |- _ => injection H as <- <- end; reflexivity).
Qed.
Lemma ev_label_bool_K n st v locs s k : oklocH locs -> label_ok K true s = true -> xlabel K s = Some k ->
  exists b, evK G n st (mkHF v locs) (val_expr (cap s)) = GRet (HOVal (HGV (HBool b))) /\ k = if b then 1 else 0.
Proof.
  intros O L H. unfold label_ok in L. unfold xlabel in H. destruct (String.eqb_spec s "TRUE") as [->|_]; [|destruct (String.eqb_spec s "FALSE") as [->|_]; [|discriminate]].
  - exists true. split; [|congruence]. apply (ev_pre_K n st v locs "true"); [exact O|]. cbn. tauto.
  - exists false. split; [|congruence]. apply (ev_pre_K n st v locs "false"); [exact O|]. cbn. tauto.
Qed.

End Names.

Lemma seq_app_K X s fr a b : seqK X s fr (a ++ b) = gbind (seqK X s fr a) (fun r => let (s, fr) := r in seqK X s fr b).
Proof.
  revert s fr. induction a as [|x a IH]; intros s fr; [reflexivity|]. cbn [seqK app]. destruct (X s fr x) as [[s1 fr1]| | |]; cbn [gbind]; [apply IH|reflexivity..].
Qed.
Lemma seq_one_K X s fr a : seqK X s fr [a] = X s fr a.
Proof. cbn. destruct (X s fr a) as [[? ?]| | |]; reflexivity. Qed.


Lemma XdrU32_range_K s z s' z' : 0 <= z < 2 ^ 32 -> KXdrU32 s z = (s', z') -> 0 <= z' < 2 ^ 32.
Proof.
  intros R H. unfold KXdrU32, HXdrU32 in H. destruct (h_err (snd s)); [congruence|]. destruct (hxdr_fixed grow _ _ _ _) as [[h1 s1] b]. destruct (HDecoding s1); injection H as _ <-; [apply get_u32_range|exact R].
Qed.
Lemma SetSize_range_K s len s' z' : KEncodingSetSize s 0 len = (s', z') -> 0 <= z' < 2 ^ 32.
Proof.
  unfold KEncodingSetSize, HEncodingSetSize. destruct (h_err (snd s)); [intros [= _ <-]; lia|]. destruct (h_reader (snd s)); [intros [= _ <-]; lia|]. destruct (len >? MaxUint32); intros [= _ <-]; [lia|].
  apply Z.mod_pos_bound. lia.
Qed.
Section Sim.
Variable fl : flags.
Variable ds : list defn.
Variable E : env.
Variable G : gpkg.
Hypothesis Hsup : supported fl ds = Some (E, G).
Let K := xconsts ds.
Notation ex := (execK G).

(** Running [ss] turns the value at [path] from what it is into [x']. *)
Definition simK (v0 : hval) (locs : list (string * hval)) (path : list step) (s : kst) (ss : list stmt) (s' : kst) (x' : hval) : Prop :=
  exists v1, path_storeH v0 path x' = Some v1 /\ evt (fun m => seqK (ex m) s (mkHF v0 locs) ss = GRet (s', mkHF v1 locs)).

Lemma sim_nil_K v0 locs path s x : path_loadH v0 path = Some x -> simK v0 locs path s [] s x.
Proof. intros L. exists v0. split; [apply path_store_same_K, L|]. apply evt_now. reflexivity. Qed.
Lemma sim_app_K v0 locs path s a b s1 x1 s2 x2 : simK v0 locs path s a s1 x1 ->
  (forall v1, path_storeH v0 path x1 = Some v1 -> simK v1 locs path s1 b s2 x2) -> simK v0 locs path s (a ++ b) s2 x2.
Proof.
  intros (v1 & S1 & A) H. destruct (H v1 S1) as (v2 & S2 & B). exists v2. split; [rewrite <- (store_store_K _ _ _ _ _ S1); exact S2|].
  revert A B. apply evt_and. intros m A B. rewrite seq_app_K, A. exact B.
Qed.
Lemma sim_sub_K v0 locs path a w s ss s' x' w' : path_loadH v0 path = Some w -> step_loadH w a <> None -> step_storeH w a x' = Some w' ->
  simK v0 locs (path ++ [a]) s ss s' x' -> simK v0 locs path s ss s' w'.
Proof.
  intros L N S (v1 & S1 & A). destruct (step_loadH w a) as [u|] eqn:F; [|congruence]. exists v1. rewrite (path_store_app_K _ _ _ _ _ _ L F), S in S1. auto.
Qed.
Lemma block_of_K m s fr ss s' v1 locs' : depthH fr = List.length locs' -> seqK (ex m) s fr ss = GRet (s', mkHF v1 locs') -> blockK (ex m) s fr ss = GRet (s', mkHF v1 locs').
Proof. intros D H. unfold blockK. rewrite H. cbn [gbind]. rewrite D, pop_same_K. reflexivity. Qed.
Lemma block_of1_K m s fr ss s' v1 y w locs' : depthH fr = List.length locs' -> seqK (ex m) s fr ss = GRet (s', mkHF v1 ((y, w) :: locs')) -> blockK (ex m) s fr ss = GRet (s', mkHF v1 locs').
Proof. intros D H. unfold blockK. rewrite H. cbn [gbind]. rewrite D, pop_push_K. reflexivity. Qed.

(** ** Calls into the library *)
Lemma ex_prim_K m s fr fn g P q x s' x' fr' : evvK G m s fr P = GRet (HGP (Some q)) -> loadH fr q = Some x ->
  lib_funK fn s None x = GRet (s', x') -> storeH fr q x' = Some fr' -> ex (S m) s fr (SPkg fn [EVar "xs"; EConv (GPtr g) P]) = GRet (s', fr').
Proof.
  intros H L F S. destruct (evv_inv_K _ _ _ _ _ _ H) as (o & A & B). cbn [execK]. unfold evvK. cbn [evK]. rewrite A. cbn [gbind]. rewrite B. cbn [gbind conv_valH rvalH throughK some_or].
  rewrite L. cbn [some_or gbind]. rewrite F. cbn [gbind]. rewrite S. reflexivity.
Qed.
Lemma sim_prim_K v0 locs P path s x fn g s' x' : ok_ptrH G v0 locs P path -> path_loadH v0 path = Some x -> lib_funK fn s None x = GRet (s', x') ->
  simK v0 locs path s [SPkg fn [EVar "xs"; EConv (GPtr g) P]] s' x'.
Proof.
  intros O L F. destruct (path_store_some_K _ _ _ x' L) as (v1 & S & _). exists v1. split; [exact S|]. apply evt_S, evt_now. intros m.
  rewrite seq_one_K. eapply ex_prim_K; [eapply ok_ptr_now_K; eassumption|exact L|exact F|]. cbn. rewrite S. reflexivity.
Qed.
Lemma ev_bound_K m s v locs sz b : oklocH locs -> bound_ok K sz = true -> xbound K sz = Some b ->
  evvK G m s (mkHF v locs) (EConv gInt (size_expr sz)) = GRet (HGV (HInt (maxlen_of b))).
Proof.
  intros O B H. unfold bound_ok in B. unfold xbound in H. unfold evvK, size_expr. destruct (String.eqb sz ""); cbn [orb] in B.
  - injection H as <-. reflexivity.
  - destruct (xval K sz) as [k|] eqn:X; [|discriminate]. destruct ((0 <=? k) && (k <=? MaxUint32)) eqn:R; [|discriminate]. injection H as <-.
    cbn [evK]. rewrite (ev_use_K _ _ _ _ Hsup m s v locs sz k O B X). cbn. rewrite to_s64_id; [reflexivity|]. apply andb_true_iff in R. rewrite !Z.leb_le in R. lia.
Qed.
Lemma sim_bound_K v0 locs P path s x fn g sz b s' x' : oklocH locs -> bound_ok K sz = true -> xbound K sz = Some b -> ok_ptrH G v0 locs P path -> path_loadH v0 path = Some x ->
  lib_funK fn s (Some (maxlen_of b)) x = GRet (s', x') -> simK v0 locs path s [SPkg fn [EVar "xs"; EConv gInt (size_expr sz); EConv (GPtr g) P]] s' x'.
Proof.
  intros Q B1 B2 O L F. destruct (path_store_some_K _ _ _ x' L) as (v1 & S & _). exists v1. split; [exact S|]. apply evt_S, evt_now. intros m.
  rewrite seq_one_K. cbn [execK]. rewrite (ev_bound_K m s v0 locs sz b Q B1 B2). cbn [gbind].
  destruct (evv_inv_K _ _ _ _ _ _ (ok_ptr_now_K _ _ _ _ _ m s _ O L)) as (o & A & B). unfold evvK. cbn [evK]. rewrite A. cbn [gbind]. rewrite B. cbn [gbind conv_valH rvalH throughK loadH hf_recv].
  rewrite L. cbn [some_or gbind]. rewrite F. cbn [gbind storeH hf_recv]. rewrite S. reflexivity.
Qed.
Lemma sim_opaque_K v0 locs P path s bs s' bs' : ok_ptrH G v0 locs P path -> path_loadH v0 path = Some (HArr bs) -> KXdrArray s bs = (s', bs') ->
  simK v0 locs path s [SPkg "XdrArray" [EVar "xs"; EAll (EParen (EDeref P))]] s' (HArr bs').
Proof.
  intros O L F. destruct (path_store_some_K _ _ _ (HArr bs') L) as (v1 & S & _). exists v1. split; [exact S|]. apply evt_S, evt_now. intros m.
  rewrite seq_one_K. cbn [execK]. destruct (evv_inv_K _ _ _ _ _ _ (ok_ptr_now_K _ _ _ _ _ m s _ O L)) as (o & A & B). unfold evvK. cbn [evK]. rewrite A. cbn [gbind]. rewrite B.
  cbn [gbind rvalH throughK loadH hf_recv]. rewrite L. cbn [some_or gbind lib_funK String.eqb Ascii.eqb Bool.eqb]. rewrite F. cbn [gbind storeH hf_recv]. rewrite S. reflexivity.
Qed.

(** ** Members *)
Section Step.
Variable n : nat.
Hypothesis IH : forall t c P ss b arr path v0 locs s x s' x',
  el_dt K t = Some c -> gx_dt t P = Some ss -> nok_dt K E arr t = true -> pexpr b P -> (b = true -> arr = true) -> oklocH locs ->
  ok_ptrH G v0 locs P path -> path_loadH v0 path = Some x -> xdrK n E c s x = Ret (s', x') -> simK v0 locs path s ss s' x'.

Lemma sim_field_K t f c P ss b arr path v0 locs s x s' x' :
  el_dt K t = Some c -> gx_dt t (fieldP P f) = Some ss -> nok_dt K E arr t = true -> pexpr b P -> (b = true -> arr = true) -> oklocH locs ->
  ok_ptrH G v0 locs P path -> path_loadH v0 path = Some x -> onK_field (xdrK n E c) s x (cap f) = Ret (s', x') -> simK v0 locs path s ss s' x'.
Proof.
  intros C X N Pb Ba O Q L H. unfold onK_field in H. destruct x as [| | | | | | |l]; try discriminate. destruct (lookup (cap f) l) as [y|] eqn:F; [|discriminate].
  destruct (xdrK n E c s y) as [[s1 y1]| |] eqn:D; try discriminate. cbn in H. injection H as <- <-.
  assert (F' : step_loadH (HStruct l) (PField (cap f)) = Some y) by exact F.
  eapply (sim_sub_K _ _ _ (PField (cap f))); [exact L|congruence|cbn; rewrite F; reflexivity|].
  eapply IH; [exact C|exact X|exact N|apply pe_field, Pb|exact Ba|exact O|eapply ok_field_K; eassumption|rewrite path_load_app_K, L; exact F|exact D].
Qed.
Lemma sim_arm_K d a P ss b arr path v0 locs s x s' x' :
  el_arm K d = Some a -> gx_field d P = Some ss -> nok_d K E arr d = true -> pexpr b P -> (b = true -> arr = true) -> oklocH locs ->
  ok_ptrH G v0 locs P path -> path_loadH v0 path = Some x -> xdrK_fields (xdrK n E) (opt_list a) s x = Ret (s', x') -> simK v0 locs path s ss s' x'.
Proof.
  intros A X N Pb Ba O Q L H. destruct d as [|t f].
  - injection A as <-. injection X as <-. injection H as <- <-. apply sim_nil_K, L.
  - change (pbind (el_dt K t) (fun c => Some (Some (cap f, c))) = Some a) in A. destruct (el_dt K t) as [c|] eqn:C; [|discriminate]. injection A as <-.
    cbn [opt_list xdrK_fields] in H. destruct (onK_field (xdrK n E c) s x (cap f)) as [[s1 x1]| |] eqn:F; try discriminate. injection H as <- <-.
    eapply sim_field_K; eassumption.
Qed.
Lemma sim_fields_K items : forall fs P ss b arr path v0 locs s x s' x',
  el_items ds items = Some fs -> gx (typeStruct items) P = Some ss -> nok K E arr (typeStruct items) = true -> pexpr b P -> (b = true -> arr = true) -> oklocH locs ->
  ok_ptrH G v0 locs P path -> path_loadH v0 path = Some x -> xdrK_fields (xdrK n E) fs s x = Ret (s', x') -> simK v0 locs path s ss s' x'.
Proof.
  induction items as [|d items IHi]; intros fs P ss b arr path v0 locs s x s' x' A X N Pb Ba O Q L H.
  - injection A as <-. injection X as <-. injection H as <- <-. apply sim_nil_K, L.
  - cbn [el_items] in A. fold K in A. destruct (el_arm K d) as [a|] eqn:A1; [|discriminate]. destruct (el_items ds items) as [fs2|]; [|discriminate]. injection A as <-.
    change (pbind (gx_field d P) (fun a => do b <- gx (typeStruct items) P ; Some (a ++ b)) = Some ss) in X.
    destruct (gx_field d P) as [s1|] eqn:X1; [|discriminate]. cbn [pbind] in X. destruct (gx (typeStruct items) P) as [s2|] eqn:X2; [|discriminate]. injection X as <-.
    change (nok_d K E arr d && nok K E arr (typeStruct items) = true) in N. apply andb_true_iff in N. destruct N as (N1 & N2).
    assert (exists sm xm, xdrK_fields (xdrK n E) (opt_list a) s x = Ret (sm, xm) /\ xdrK_fields (xdrK n E) fs2 sm xm = Ret (s', x')) as (sm & xm & H1 & H2).
    { destruct a as [[f c]|]; cbn [opt_list app xdrK_fields] in *; [|eauto]. destruct (onK_field (xdrK n E c) s x f) as [[s3 x3]| |]; try discriminate. cbn [obind] in *. eauto. }
    eapply sim_app_K; [eapply sim_arm_K; eassumption|]. intros v1 S1. eapply IHi; try eassumption; [reflexivity|eapply ok_ptr_store_K; eassumption|eapply store_load_K; exact S1].
Qed.

(** ** Single statements *)
Notation stp s fr a r := (evt (fun m => ex m s fr a = GRet r)).
Notation sqp s fr a r := (evt (fun m => seqK (ex m) s fr a = GRet r)).
Lemma sq_cons_K s fr a ss s1 fr1 r : stp s fr a (s1, fr1) -> sqp s1 fr1 ss r -> sqp s fr (a :: ss) r.
Proof. apply evt_and. intros m A B. cbn [seqK]. rewrite A. exact B. Qed.
Lemma sq_nil_K s fr : sqp s fr [] (s, fr). Proof. apply evt_now. reflexivity. Qed.
Lemma st_block_K s v locs ss s1 v1 y : sqp s (mkHF v locs) ss (s1, mkHF v1 (y :: locs)) -> stp s (mkHF v locs) (SBlock ss) (s1, mkHF v1 locs).
Proof. intros H. apply evt_S. revert H. apply evt_impl. intros m H. cbn [execK]. destruct y as [y w]. eapply block_of1_K; [reflexivity|exact H]. Qed.
Lemma st_if_true_K s v locs c a b s1 v1 : (forall m, ev_boolK G m s (mkHF v locs) c = GRet true) -> sqp s (mkHF v locs) a (s1, mkHF v1 locs) ->
  stp s (mkHF v locs) (SIf c a b) (s1, mkHF v1 locs).
Proof. intros C H. apply evt_S. revert H. apply evt_impl. intros m H. cbn [execK]. rewrite C. cbn [gbind]. eapply block_of_K; [reflexivity|exact H]. Qed.
Lemma st_if_true1_K s v locs c a b s1 v1 y : (forall m, ev_boolK G m s (mkHF v locs) c = GRet true) -> sqp s (mkHF v locs) a (s1, mkHF v1 (y :: locs)) ->
  stp s (mkHF v locs) (SIf c a b) (s1, mkHF v1 locs).
Proof. intros C H. apply evt_S. revert H. apply evt_impl. intros m H. cbn [execK]. rewrite C. cbn [gbind]. destruct y as [y w]. eapply block_of1_K; [reflexivity|exact H]. Qed.
Lemma st_if_false_K s fr c a : (forall m, ev_boolK G m s fr c = GRet false) -> stp s fr (SIf c a None) (s, fr).
Proof. intros C. apply evt_S, evt_now. intros m. cbn [execK]. rewrite C. reflexivity. Qed.
Lemma st_if_else_K s v locs c a b s1 v1 : (forall m, ev_boolK G m s (mkHF v locs) c = GRet false) -> sqp s (mkHF v locs) b (s1, mkHF v1 locs) ->
  stp s (mkHF v locs) (SIf c a (Some b)) (s1, mkHF v1 locs).
Proof. intros C H. apply evt_S. revert H. apply evt_impl. intros m H. cbn [execK]. rewrite C. cbn [gbind]. eapply block_of_K; [reflexivity|exact H]. Qed.
Lemma evb_mode_K m s v locs : oklocH locs -> ev_boolK G m s (mkHF v locs) (EQuery "xs" "Encoding") = GRet (KEncoding s) /\ ev_boolK G m s (mkHF v locs) (EQuery "xs" "Decoding") = GRet (KDecoding s).
Proof. intros O. unfold ev_boolK, evvK. cbn [evK hf_locs]. rewrite (okloc_find_K _ "xs" O) by (cbn; intuition discriminate). split; reflexivity. Qed.
Lemma st_var_K s v locs x g z : (exists k, gzeroH G k g = Some z) -> (forall k k' z, (k <= k')%nat -> gzeroH G k g = Some z -> gzeroH G k' g = Some z) ->
  stp s (mkHF v locs) (SVar x g) (s, mkHF v ((x, z) :: locs)).
Proof.
  intros (k & Hk) Hm. apply evt_S. exists k. intros m L. cbn [execK]. rewrite (Hm _ _ _ L Hk). reflexivity.
Qed.
Lemma st_var_basic_K s v locs x b z : gzeroH G 1 (GBasic b) = Some z -> stp s (mkHF v locs) (SVar x (GBasic b)) (s, mkHF v ((x, z) :: locs)).
Proof. intros H. apply st_var_K; [eauto|]. intros [|k] [|k'] w L; try discriminate; try lia. auto. Qed.
Lemma st_local_K s v locs fn g x w s' w' : lib_funK fn s None w = GRet (s', w') -> (match w with HPtr _ => False | _ => True end) ->
  stp s (mkHF v ((x, w) :: locs)) (SPkg fn [EVar "xs"; EConv (GPtr g) (EAddr (EVar x))]) (s', mkHF v ((x, w') :: locs)).
Proof.
  intros F N. apply evt_S, evt_now. intros m. eapply (ex_prim_K m s _ fn g _ (PLoc (List.length locs)) w); [|cbn [loadH hf_locs]; apply loc_get_top_K|exact F|cbn [storeH hf_locs]; rewrite loc_set_top_K; reflexivity].
  unfold evvK. cbn [evK hf_locs loc_findH]. rewrite String.eqb_refl. reflexivity.
Qed.
Lemma evv_local_K m s v locs x w : (match w with HPtr _ => False | _ => True end) -> evvK G m s (mkHF v ((x, w) :: locs)) (EVar x) = GRet (HGV w).
Proof. intros N. unfold evvK. cbn [evK hf_locs loc_findH]. rewrite String.eqb_refl. cbn [gbind rvalH loadH hf_locs]. rewrite loc_get_top_K. destruct w; try reflexivity. destruct N. Qed.
Lemma evv_deref_K m s v0 locs P path x : ok_ptrH G v0 locs P path -> path_loadH v0 path = Some x -> evK G m s (mkHF v0 locs) (EDeref P) = GRet (HOPl (PRecv path)).
Proof. intros Q L. destruct (evv_inv_K _ _ _ _ _ _ (ok_ptr_now_K _ _ _ _ _ m s _ Q L)) as (o & A & B). cbn [evK]. rewrite A. cbn [gbind]. rewrite B. reflexivity. Qed.

(** ** Arrays *)
Section Arr.
Variables (t : typespec) (c : cty) (P : expr) (body : list stmt) (path : list step) (locs : list (string * hval)) (sz : Z).
Hypothesis Hc : el K t = Some c.
Hypothesis Hx : gx t (elemP P) = Some body.
Hypothesis Hn : nok K E true t = true.
Hypothesis HP : pexpr false P.
Hypothesis Hl : oklocH locs.
Hypothesis Hsz : 0 <= sz < 2 ^ 32.
Let l1 := ("__arraysz", HInt sz) :: locs.
Let l2 (k : Z) := ("i", HInt k) :: l1.
Let cond := ELt (EVar "i") (EConv gU64 (EVar "__arraysz")).

Lemma okl1_K : oklocH l1. Proof. apply okloc_push_K; [exact Hl|cbn; tauto]. Qed.
Lemma okl2_K k : oklocH (l2 k). Proof. apply okloc_push_K; [apply okl1_K|cbn; tauto]. Qed.
Lemma ok1_K v : ok_ptrH G v locs P path -> ok_ptrH G v l1 P path.
Proof. intros Q. eapply ok_ptr_push_K; eauto; discriminate. Qed.
Lemma ok2_K v k : ok_ptrH G v locs P path -> ok_ptrH G v (l2 k) P path.
Proof. intros Q. eapply ok_ptr_push_K; eauto; [apply okl1_K|discriminate|discriminate|apply ok1_K, Q]. Qed.
Lemma ev_cond_K m s v k : ev_boolK G m s (mkHF v (l2 k)) cond = GRet (k <? sz).
Proof.
  unfold ev_boolK, evvK, cond. cbn [evK hf_locs loc_findH l2 l1]. change (String.eqb "i" "i") with true. change (String.eqb "__arraysz" "i") with false. rewrite String.eqb_refl.
  cbn [gbind rvalH loadH hf_locs]. unfold l2, l1. rewrite loc_get_top_K. cbn [gbind]. rewrite loc_get_push_K by (cbn; lia). rewrite loc_get_top_K. cbn. rewrite (to_u64_id _ Hsz). reflexivity.
Qed.
Lemma incr_i_K v k : incrH "i" (mkHF v (l2 k)) = GRet (mkHF v (l2 (k + 1))).
Proof. unfold incrH, l2. cbn [hf_locs loc_findH]. change (String.eqb "i" "i") with true. cbv iota. rewrite loc_get_top_K. cbn [storeH hf_locs]. rewrite loc_set_top_K. reflexivity. Qed.
Lemma sim_loop_K j : forall a r s v s' r', xdrK_elems (xdrK n E c) j r s = Ret (s', r') -> sz = Z.of_nat (List.length a + j) ->
  path_loadH v path = Some (HSlice (Some (a ++ r))) -> ok_ptrH G v locs P path ->
  exists v1, path_storeH v path (HSlice (Some (a ++ r'))) = Some v1 /\
    exists m0, forall m q, (m0 <= m)%nat -> (m0 <= q)%nat -> loopK G (ex m) m q "i" cond body s (mkHF v (l2 (Z.of_nat (List.length a)))) = GRet (s', mkHF v1 (l2 sz)).
Proof.
  induction j as [|j IHj]; intros a r s v s' r' H Z L Q; cbn in H.
  - injection H as <- <-. exists v. split; [apply path_store_same_K, L|]. exists 1%nat. intros m [|q] _ Lq; [lia|]. cbn [loopK]. rewrite ev_cond_K.
    replace (Z.of_nat (List.length a) <? sz) with false by (symmetry; apply Z.ltb_ge; lia). cbn [gbind]. replace (Z.of_nat (List.length a)) with sz by lia. reflexivity.
  - destruct r as [|x r]; [discriminate|]. destruct (xdrK n E c s x) as [[s1 x1]| |] eqn:X; try discriminate. cbn in H.
    destruct (xdrK_elems (xdrK n E c) j r s1) as [[s2 r2]| |] eqn:R; try discriminate. cbn in H. injection H as <- <-.
    set (k := List.length a) in *.
    assert (Nk : nth_error (a ++ x :: r) k = Some x) by (unfold k; rewrite nth_error_app2, Nat.sub_diag by lia; reflexivity).
    assert (Qe : ok_ptrH G v (l2 (Z.of_nat k)) (elemP P) (path ++ [PIdx k])).
    { eapply ok_elem_K; [apply ok2_K, Q|exact L|exact Nk|reflexivity|apply loc_get_top_K]. }
    assert (B : simK v (l2 (Z.of_nat k)) (path ++ [PIdx k]) s body s1 x1).
    { eapply (IH (declTypeTypespec t)); [exact Hc|exact Hx|exact Hn|apply (pe_elem _ _ HP)|reflexivity|apply okl2_K|exact Qe| |exact X]. rewrite path_load_app_K, L. exact Nk. }
    eapply (sim_sub_K _ _ _ (PIdx k)) in B; [|exact L|cbn; congruence|cbn; unfold k; rewrite set_nth_app; reflexivity].
    destruct B as (v1 & S1 & (m1 & B)).
    destruct (IHj (a ++ [x1]) r s1 v1 s2 r2 R) as (v2 & S2 & m2 & W).
    { rewrite app_length. cbn. lia. }
    { rewrite <- app_assoc. eapply store_load_K, S1. }
    { eapply ok_ptr_store_K; eassumption. }
    exists v2. split; [rewrite <- app_assoc in S2; cbn in S2; rewrite <- S2; symmetry; apply (store_store_K _ _ _ _ _ S1)|].
    exists (S (m1 + m2)). intros m [|q] Lm Lq; [lia|]. cbn [loopK]. rewrite ev_cond_K.
    replace (Z.of_nat k <? sz) with true by (symmetry; apply Z.ltb_lt; unfold k; lia). cbn [gbind].
    rewrite (block_of_K m s (mkHF v (l2 (Z.of_nat k))) body s1 v1 (l2 (Z.of_nat k)) eq_refl (B m ltac:(lia))). cbn [gbind]. rewrite incr_i_K. cbn [gbind].
    rewrite app_length in W. cbn [List.length] in W. replace (Z.of_nat k + 1) with (Z.of_nat (List.length a + 1)) by (unfold k; lia). apply W; lia.
Qed.
Lemma st_for_K s v s' v1 : (exists m0, forall m q, (m0 <= m)%nat -> (m0 <= q)%nat -> loopK G (ex m) m q "i" cond body s (mkHF v (l2 0)) = GRet (s', mkHF v1 (l2 sz))) ->
  stp s (mkHF v l1) (SFor "i" (EConv gU64 (ENum "0")) cond body) (s', mkHF v1 l1).
Proof.
  intros (m0 & H). apply evt_S. exists m0. intros m L. cbn [execK]. change (evvK G m s (mkHF v l1) (EConv gU64 (ENum "0"))) with (GRet (HGV (HInt 0))). cbn [gbind].
  match goal with |- gbind ?o _ = _ => replace o with (GRet (s', mkHF v1 (l2 sz))) by (symmetry; exact (H m m L L)) end. cbn [gbind]. unfold l2, depthH. cbn [hf_locs]. rewrite pop_push_K. reflexivity.
Qed.
End Arr.

Lemma gzero_el_K arr t g c k : gt t = Some g -> el K t = Some c -> nok K E arr t = true -> gzeroH G k g = hzero k E c.
Proof. intros A B N. unfold gzeroH, hzero. f_equal. apply (gzero_eq _ _ _ _ Hsup k arr (declTypeTypespec t)); assumption. Qed.
Lemma evt_zero_K arr t g c z : gt t = Some g -> el K t = Some c -> nok K E arr t = true -> hzero n E c = Some z -> evt (fun m => gzeroH G m g = Some z).
Proof.
  intros A B N H. exists n. intros m L. rewrite (gzero_el_K _ _ _ _ _ A B N). unfold hzero in *. destruct (zero n E c) as [y|] eqn:Z; [|discriminate].
  rewrite (zero_mono _ _ _ _ _ L Z). exact H.
Qed.

Lemma sim_arr_K t c P g body bound b path v0 locs s o s' x' :
  el K t = Some c -> gx t (elemP P) = Some body -> nok K E true t = true -> pexpr false P -> oklocH locs -> gt t = Some g ->
  bound_ok K bound = true -> xbound K bound = Some b ->
  ok_ptrH G v0 locs P path -> path_loadH v0 path = Some (HSlice o) -> xdrK (S n) E (CVarArray b c) s (HSlice o) = Ret (s', x') ->
  simK v0 locs path s [SBlock (arr_body P bound g body)] s' x'.
Proof.
  intros Hc Hx Hn HP Hl Hg B1 B2 Q L H. cbn [xdrK] in H.
  destruct (KEncodingSetSize s 0 (zlen (helems o))) as [s1 sz0] eqn:D1. destruct (KXdrU32 s1 sz0) as [s2 sz] eqn:D2.
  pose proof (SetSize_range_K _ _ _ _ D1) as R0. pose proof (XdrU32_range_K _ _ _ _ R0 D2) as R1.
  assert (Q1 : forall z, ok_ptrH G v0 (("__arraysz", HInt z) :: locs) P path) by (intros z; eapply ok_ptr_push_K; eauto; discriminate).
  assert (O1 : forall z, oklocH (("__arraysz", HInt z) :: locs)) by (intros z; apply okloc_push_K; [exact Hl|cbn; tauto]).
  (* the three statements before the bound test *)
  enough (exists v1, path_storeH v0 path x' = Some v1 /\ sqp s2 (mkHF v0 (("__arraysz", HInt sz) :: locs)) (skipn 3 (arr_body P bound g body)) (s', mkHF v1 (("__arraysz", HInt sz) :: locs))) as (v1 & S1 & T).
  { exists v1. split; [exact S1|]. eapply evt_impl; [intros m A; rewrite seq_one_K; exact A|]. eapply st_block_K. unfold arr_body. cbn [app].
    eapply sq_cons_K; [apply (st_var_basic_K _ _ _ _ _ (HInt 0)); reflexivity|]. eapply sq_cons_K; [|eapply sq_cons_K; [apply (st_local_K s1 v0 locs "XdrU32" gU32 "__arraysz" (HInt sz0) s2 (HInt sz)); [cbn; rewrite D2; reflexivity|exact I]|exact T]].
    apply evt_S, evt_now. intros m. cbn [execK]. change (String.eqb "EncodingSetSize" "EncodingSetSize") with true. cbv iota.
    assert (evvK G m s (mkHF v0 (("__arraysz", HInt 0) :: locs)) (EAddr (EVar "__arraysz")) = GRet (HGP (Some (PLoc (List.length locs))))) as -> by reflexivity.
    cbn [gbind].
    assert (evvK G m s (mkHF v0 (("__arraysz", HInt 0) :: locs)) (ELen (EDeref P)) = GRet (HGV (HInt (zlen (helems o))))) as ->.
    { unfold evvK. change (evK G m s (mkHF v0 (("__arraysz", HInt 0) :: locs)) (ELen (EDeref P))) with (let! o := evK G m s (mkHF v0 (("__arraysz", HInt 0) :: locs)) (EDeref P) in let! g := rvalH (mkHF v0 (("__arraysz", HInt 0) :: locs)) o in
      match g with HGV (HSlice l) => GRet (HOVal (HGV (HInt (zlen (helems l))))) | _ => GStuck end). rewrite (evv_deref_K m s _ _ _ _ _ (Q1 0) L). cbn [gbind rvalH loadH hf_recv]. rewrite L. reflexivity. }
    cbn [gbind throughK loadH hf_locs]. rewrite loc_get_top_K. cbn [some_or gbind]. rewrite D1. cbn [gbind storeH hf_locs]. rewrite loc_set_top_K. reflexivity. }
  (* the loop, when the bound is kept *)
  set (rest := [SIf (EQuery "xs" "Decoding") [SAssign (EDeref P) (EMake (GSlice g) (EVar "__arraysz"))] None;
     SFor "i" (EConv gU64 (ENum "0")) (ELt (EVar "i") (EConv gU64 (EVar "__arraysz"))) body]).
  assert (HR : (if KDecoding s2 then
            match hzero n E c with
            | None => NoFuel
            | Some z => '(s3, l3) <- xdrK_elems (xdrK n E c) (Z.to_nat sz) (repeat z (Z.to_nat sz)) s2 ;; Ret (s3, HSlice (Some l3))
            end
          else '(s3, l3) <- xdrK_elems (xdrK n E c) (Z.to_nat sz) (helems o) s2 ;; Ret (s3, HSlice (match o with Some _ => Some l3 | None => None end))) = Ret (s', x') ->
     exists v1, path_storeH v0 path x' = Some v1 /\ sqp s2 (mkHF v0 (("__arraysz", HInt sz) :: locs)) rest (s', mkHF v1 (("__arraysz", HInt sz) :: locs))).
  { clear H. intros H. destruct (KDecoding s2) eqn:Dec.
    - destruct (hzero n E c) as [z|] eqn:Hz; [|discriminate].
      destruct (xdrK_elems (xdrK n E c) (Z.to_nat sz) (repeat z (Z.to_nat sz)) s2) as [[s3 l3]| |] eqn:X; try discriminate. injection H as <- <-.
      destruct (path_store_some_K _ _ _ (HSlice (Some (repeat z (Z.to_nat sz)))) L) as (va & Sa & La & Qa).
      destruct (sim_loop_K t c P body path locs sz Hc Hx Hn HP Hl R1 (Z.to_nat sz) [] _ s2 va s3 l3 X) as (v1 & S1 & W).
      { cbn. lia. } { exact La. } { eapply ok_ptr_store_K; eassumption. }
      exists v1. split; [rewrite <- Qa; exact S1|]. unfold rest. eapply sq_cons_K.
      + apply st_if_true_K; [intros m; rewrite (proj2 (evb_mode_K m s2 v0 _ (O1 sz))), Dec; reflexivity|].
        eapply evt_impl; [intros m A; rewrite seq_one_K; exact A|]. apply evt_S. generalize (evt_zero_K _ _ _ _ _ Hg Hc Hn Hz). apply evt_impl. intros m Zm. cbn [execK].
        rewrite (evv_deref_K m s2 _ _ _ _ _ (Q1 sz) L). cbn [gbind]. unfold evvK at 1. cbn [evK hf_locs loc_findH]. rewrite String.eqb_refl. cbn [gbind rvalH loadH hf_locs]. rewrite loc_get_top_K. cbn [gbind].
        rewrite Zm. cbn [some_or gbind rvalH storeH hf_recv]. rewrite Sa. reflexivity.
      + eapply sq_cons_K; [|apply sq_nil_K]. eapply st_for_K; exact W.
    - destruct (xdrK_elems (xdrK n E c) (Z.to_nat sz) (helems o) s2) as [[s3 l3]| |] eqn:X; try discriminate. injection H as <- <-.
      assert (Hno : stp s2 (mkHF v0 (("__arraysz", HInt sz) :: locs)) (SIf (EQuery "xs" "Decoding") [SAssign (EDeref P) (EMake (GSlice g) (EVar "__arraysz"))] None) (s2, mkHF v0 (("__arraysz", HInt sz) :: locs))).
      { apply st_if_false_K. intros m. rewrite (proj2 (evb_mode_K m s2 v0 _ (O1 sz))), Dec. reflexivity. }
      destruct o as [l|].
      + destruct (sim_loop_K t c P body path locs sz Hc Hx Hn HP Hl R1 (Z.to_nat sz) [] _ s2 v0 s3 l3 X) as (v1 & S1 & W).
        { cbn. lia. } { exact L. } { exact Q. }
        exists v1. split; [exact S1|]. unfold rest. eapply sq_cons_K; [exact Hno|]. eapply sq_cons_K; [|apply sq_nil_K]. eapply st_for_K; exact W.
      + cbn [helems] in X. destruct (Z.to_nat sz) eqn:Ez; [|discriminate]. injection X as <- <-. exists v0. split; [apply path_store_same_K, L|].
        unfold rest. eapply sq_cons_K; [exact Hno|]. eapply sq_cons_K; [|apply sq_nil_K]. eapply st_for_K. exists 1%nat. intros m [|q] _ Lq; [lia|].
        cbn [loopK]. rewrite (ev_cond_K _ _ R1). replace (0 <? sz) with false by (symmetry; apply Z.ltb_ge; lia). replace sz with 0 by lia. reflexivity. }
  unfold bound_ok in B1. unfold xbound in B2. unfold arr_body. fold rest. destruct (String.eqb bound ""); cbn [orb] in B1.
  - injection B2 as <-. apply HR, H.
  - destruct (xval K bound) as [k|] eqn:X; [|discriminate]. destruct ((0 <=? k) && (k <=? MaxUint32)); [|discriminate]. injection B2 as <-.
    assert (Cb : forall m, ev_boolK G m s2 (mkHF v0 (("__arraysz", HInt sz) :: locs)) (EGt (EVar "__arraysz") (val_expr bound)) = GRet (sz >? k)).
    { intros m. unfold ev_boolK, evvK. change (evK G m s2 (mkHF v0 (("__arraysz", HInt sz) :: locs)) (EGt (EVar "__arraysz") (val_expr bound))) with
        (let! ga := evvK G m s2 (mkHF v0 (("__arraysz", HInt sz) :: locs)) (EVar "__arraysz") in let! ob := evK G m s2 (mkHF v0 (("__arraysz", HInt sz) :: locs)) (val_expr bound) in
         let! gb := rvalH (mkHF v0 (("__arraysz", HInt sz) :: locs)) ob in compareH Z.gtb ga gb).
      rewrite evv_local_K by exact I. cbn [gbind]. rewrite (ev_use_K _ _ _ _ Hsup m s2 v0 _ bound k (O1 sz) B1 X). reflexivity. }
    cbn [app skipn]. destruct (sz >? k).
    + injection H as <- <-. exists v0. split; [apply path_store_same_K, L|]. eapply sq_cons_K; [|apply sq_nil_K]. apply st_if_true_K; [exact Cb|].
      eapply evt_impl; [intros m A; rewrite seq_one_K; exact A|]. apply evt_S, evt_now. intros m. reflexivity.
    + destruct (HR H) as (v1 & S1 & T). exists v1. split; [exact S1|]. eapply sq_cons_K; [|apply sq_nil_K]. apply st_if_else_K; [exact Cb|exact T].
Qed.

(** ** Pointers *)
Lemma sim_ptr_K t c P g body b arr path v0 locs s o s' x' :
  el K t = Some c -> gx t (derefP P) = Some body -> nok K E arr t = true -> pexpr b P -> (b = true -> arr = true) -> oklocH locs -> gt t = Some g ->
  ok_ptrH G v0 locs P path -> path_loadH v0 path = Some (HPtr o) -> xdrK (S n) E (CPtr c) s (HPtr o) = Ret (s', x') ->
  simK v0 locs path s (ptr_body P g body) s' x'.
Proof.
  intros Hc Hx Hn HP Hb Hl Hg Q L H. cbn [xdrK] in H.
  assert (Q1 : forall v w, ok_ptrH G v locs P path -> ok_ptrH G v (("opted", w) :: locs) P path) by (intros v w Qv; eapply ok_ptr_push_K; eauto; discriminate).
  assert (O1 : forall w, oklocH (("opted", w) :: locs)) by (intros w; apply okloc_push_K; [exact Hl|cbn; tauto]).
  (* the pointee, once there is one *)
  assert (Body : forall v w st x st' y, ok_ptrH G v locs P path -> path_loadH v path = Some (HPtr (Some x)) -> xdrK n E c st x = Ret (st', y) ->
            simK v (("opted", w) :: locs) path st body st' (HPtr (Some y))).
  { intros v w st x st' y Qv Lv X. eapply (sim_sub_K _ _ _ PDeref); [exact Lv|cbn; discriminate|reflexivity|].
    eapply (IH (declTypeTypespec t)); [exact Hc|exact Hx|exact Hn|apply pe_deref, HP|exact Hb|apply O1|eapply ok_deref_K; [apply Q1, Qv|exact Lv]| |exact X].
    rewrite path_load_app_K, Lv. reflexivity. }
  assert (Opt : forall m st v w, ev_boolK G m st (mkHF v (("opted", HBool w) :: locs)) (EVar "opted") = GRet w) by (intros; unfold ev_boolK; rewrite evv_local_K by exact I; reflexivity).
  match type of H with obind ?A _ = _ => destruct A as [[s1 o1]| |] eqn:Enc end; try discriminate. cbn [obind] in H.
  change (ptr_body P g body) with ([nth 0 (ptr_body P g body) (SBlock [])] ++ [nth 1 (ptr_body P g body) (SBlock [])]). unfold ptr_body. cbn [nth].
  apply (sim_app_K _ _ _ _ _ _ s1 (HPtr o1)).
  - (* encoding *)
    enough (exists v1, path_storeH v0 path (HPtr o1) = Some v1 /\ stp s (mkHF v0 locs)
       (SIf (EQuery "xs" "Encoding") [SDef "opted" (ENe (derefP P) (EVar "nil")); xBool (EAddr (EVar "opted")); SIf (EVar "opted") body None] None) (s1, mkHF v1 locs)) as (v1 & S1 & T).
    { exists v1. split; [exact S1|]. eapply evt_impl; [intros m A; rewrite seq_one_K; exact A|]. exact T. }
    destruct (KEncoding s) eqn:En.
    + set (op := match o with Some _ => true | None => false end) in *. destruct (KXdrBool s op) as [s2 op2] eqn:XB.
      assert (Pre : forall v1 w, sqp s2 (mkHF v0 (("opted", HBool op2) :: locs)) [SIf (EVar "opted") body None] (s1, mkHF v1 (("opted", w) :: locs)) ->
        stp s (mkHF v0 locs) (SIf (EQuery "xs" "Encoding") [SDef "opted" (ENe (derefP P) (EVar "nil")); xBool (EAddr (EVar "opted")); SIf (EVar "opted") body None] None) (s1, mkHF v1 locs)).
      { intros v1 w T. eapply st_if_true1_K; [intros m; rewrite (proj1 (evb_mode_K m s v0 _ Hl)), En; reflexivity|].
        eapply sq_cons_K; [|eapply sq_cons_K; [|exact T]]; [|apply (st_local_K s v0 locs "XdrBool" gBool "opted" (HBool op) s2 (HBool op2)); [cbn; rewrite XB; reflexivity|exact I]].
        apply evt_S, evt_now. intros m. cbn [execK]. unfold evvK.
        change (evK G m s (mkHF v0 locs) (ENe (derefP P) (EVar "nil"))) with (let! oa := evK G m s (mkHF v0 locs) (derefP P) in let! ga := rvalH (mkHF v0 locs) oa in
          let! ob := evK G m s (mkHF v0 locs) (EVar "nil") in let! gb := rvalH (mkHF v0 locs) ob in
          match ga, gb with HGP p, HGP None => GRet (HOVal (HGV (HBool (match p with Some _ => true | None => false end)))) | _, _ => GStuck end).
        change (evK G m s (mkHF v0 locs) (derefP P)) with (evK G m s (mkHF v0 locs) (EDeref P)). rewrite (evv_deref_K m s _ _ _ _ _ Q L). cbn [gbind rvalH loadH hf_recv]. rewrite L.
        rewrite (ev_pre_K _ _ _ _ Hsup m s v0 locs "nil" (HGP None) Hl) by (cbn; tauto). unfold op. destruct o; reflexivity. }
      destruct op2.
      * destruct o as [x|]; [|discriminate]. destruct (xdrK n E c s2 x) as [[s3 x3]| |] eqn:X; try discriminate. injection Enc as <- <-.
        destruct (Body v0 (HBool true) s2 x s3 x3 Q L X) as (v1 & S1 & T). exists v1. split; [exact S1|]. eapply Pre.
        eapply sq_cons_K; [|apply sq_nil_K]. apply st_if_true_K; [intros; apply Opt|exact T].
      * injection Enc as <- <-. exists v0. split; [apply path_store_same_K, L|]. eapply Pre. eapply sq_cons_K; [|apply sq_nil_K]. apply st_if_false_K. intros; apply Opt.
    + injection Enc as <- <-. exists v0. split; [apply path_store_same_K, L|]. apply st_if_false_K. intros m. rewrite (proj1 (evb_mode_K m s v0 _ Hl)), En. reflexivity.
  - (* decoding *)
    intros va Sa. pose proof (store_load_K _ _ _ _ Sa) as La. pose proof (ok_ptr_store_K _ _ _ _ _ _ _ Q Sa) as Qa.
    enough (exists v1, path_storeH va path x' = Some v1 /\ stp s1 (mkHF va locs)
       (SIf (EQuery "xs" "Decoding") [SVar "opted" gBool; xBool (EAddr (EVar "opted")); SIf (EVar "opted") (SAssign (derefP P) (ENew g) :: body) None] None) (s', mkHF v1 locs)) as (v1 & S1 & T).
    { exists v1. split; [exact S1|]. eapply evt_impl; [intros m A; rewrite seq_one_K; exact A|]. exact T. }
    destruct (KDecoding s1) eqn:De.
    + destruct (KXdrBool s1 false) as [s2 op] eqn:XB.
      assert (Pre : forall v1 w, sqp s2 (mkHF va (("opted", HBool op) :: locs)) [SIf (EVar "opted") (SAssign (derefP P) (ENew g) :: body) None] (s', mkHF v1 (("opted", w) :: locs)) ->
        stp s1 (mkHF va locs) (SIf (EQuery "xs" "Decoding") [SVar "opted" gBool; xBool (EAddr (EVar "opted")); SIf (EVar "opted") (SAssign (derefP P) (ENew g) :: body) None] None) (s', mkHF v1 locs)).
      { intros v1 w T. eapply st_if_true1_K; [intros m; rewrite (proj2 (evb_mode_K m s1 va _ Hl)), De; reflexivity|].
        eapply sq_cons_K; [apply (st_var_basic_K _ _ _ _ _ (HBool false)); reflexivity|eapply sq_cons_K; [|exact T]]. apply (st_local_K s1 va locs "XdrBool" gBool "opted" (HBool false) s2 (HBool op)); [cbn; rewrite XB; reflexivity|exact I]. }
      destruct op.
      * destruct (hzero n E c) as [z|] eqn:Hz; [|discriminate]. destruct (xdrK n E c s2 z) as [[s3 x3]| |] eqn:X; try discriminate. injection H as <- <-.
        destruct (path_store_some_K _ _ _ (HPtr (Some z)) La) as (vb & Sb & Lb & Qb).
        destruct (Body vb (HBool true) s2 z s3 x3 (ok_ptr_store_K _ _ _ _ _ _ _ Qa Sb) Lb X) as (v1 & S1 & T). exists v1. split; [rewrite <- Qb; exact S1|]. eapply Pre.
        eapply sq_cons_K; [|apply sq_nil_K]. apply st_if_true_K; [intros; apply Opt|]. eapply sq_cons_K; [|exact T].
        apply evt_S. generalize (evt_zero_K _ _ _ _ _ Hg Hc Hn Hz). apply evt_impl. intros m Zm. cbn [execK].
        change (evK G m s2 (mkHF va (("opted", HBool true) :: locs)) (derefP P)) with (evK G m s2 (mkHF va (("opted", HBool true) :: locs)) (EDeref P)).
        rewrite (evv_deref_K m s2 _ _ _ _ _ (Q1 _ (HBool true) Qa) La). cbn [gbind]. unfold evvK. cbn [evK]. rewrite Zm. cbn [some_or gbind rvalH storeH hf_recv]. rewrite Sb. reflexivity.
      * injection H as <- <-. exists va. split; [apply path_store_same_K, La|]. eapply Pre. eapply sq_cons_K; [|apply sq_nil_K]. apply st_if_false_K. intros; apply Opt.
    + injection H as <- <-. exists va. split; [apply path_store_same_K, La|]. apply st_if_false_K. intros m. rewrite (proj2 (evb_mode_K m s1 va _ Hl)), De. reflexivity.
Qed.

(** ** Unions *)
Definition clause : Type := (option expr * list stmt * bool)%type.
(** Clauses that lead to [body]. *)
Inductive falls (body : list stmt) : list clause -> Prop :=
| fa_here l r : falls body ((l, body, false) :: r)
| fa_next l r : falls body r -> falls body ((l, [], true) :: r).
Lemma run_falls_K body cs s v locs s1 v1 : falls body cs -> sqp s (mkHF v locs) body (s1, mkHF v1 locs) ->
  evt (fun m => runK (ex m) s (mkHF v locs) cs = GRet (s1, mkHF v1 locs)).
Proof.
  intros F H. revert H. apply evt_impl. intros m H. induction F as [l r|l r F IHF]; cbn [runK].
  - rewrite (block_of_K m s (mkHF v locs) body s1 v1 locs eq_refl H). reflexivity.
  - rewrite (block_of_K m s (mkHF v locs) [] s v locs eq_refl eq_refl). cbn [gbind]. exact IHF.
Qed.

Definition kind_ok (bk : bool) (v : hval) : Prop := match v with HInt _ => bk = false | HBool _ => bk = true | _ => False end.
Lemma disc_kind_val_K k : forall m c bk s x s' x', disc_kind E k c = Some bk -> xdrK m E c s x = Ret (s', x') -> kind_ok bk x'.
Proof.
  induction k as [|k IHk]; intros m c bk s x s' x' D H; [discriminate|]. destruct m as [|m]; [discriminate|].
  destruct c; cbn [disc_kind] in D; try discriminate; try (injection D as <-; destruct x; cbn [xdrK] in H; try discriminate;
    match type of H with (let '(_, _) := ?o in _) = _ => destruct o end; injection H as _ <-; reflexivity).
  cbn [xdrK] in H. destruct (lookup x0 E) as [u|]; [|discriminate]. eapply IHk; [exact D|]. destruct x; exact H.
Qed.

Section Switch.
Variables (bk : bool) (dv : hval) (d : Z) (v : hval) (locs : list (string * hval)) (st : kst).
Notation fc m cs := (find_clauseK G m st (mkHF v locs) (HGV dv) cs).
Hypothesis Hk : kind_ok bk dv.
Hypothesis Hd : hdisc dv = Some d.
Hypothesis Hl : oklocH locs.
Lemma find_label_K m l k ss ft r : label_ok K bk l = true -> xlabel K l = Some k ->
  find_clauseK G m st (mkHF v locs) (HGV dv) ((Some (val_expr (cap l)), ss, ft) :: r) =
  if d =? k then GRet (Some ((Some (val_expr (cap l)), ss, ft) :: r)) else find_clauseK G m st (mkHF v locs) (HGV dv) r.
Proof.
  intros L X. cbn [find_clauseK]. unfold evvK. destruct dv as [z|b| | | | | |]; try destruct Hk; injection Hd as <-; cbn in Hk; subst bk.
  - rewrite (ev_label_int_K _ _ _ _ Hsup m st v locs l k Hl L X). cbn [gbind rvalH]. reflexivity.
  - destruct (ev_label_bool_K _ _ _ _ Hsup m st v locs l k Hl L X) as (b' & -> & ->). cbn [gbind rvalH]. destruct b, b'; reflexivity.
Qed.
Lemma find_labels_K ls : forall ks body r, forallb (label_ok K bk) ls = true -> xlabels K ls = Some ks ->
  if existsb (Z.eqb d) ks then exists cs, (forall m, fc m (label_clauses ls body ++ r) = GRet (Some cs)) /\ falls body cs
  else forall m, fc m (label_clauses ls body ++ r) = fc m r.
Proof.
  induction ls as [|l ls IHl]; intros ks body r A B.
  - injection B as <-. cbn [existsb]. intros m. reflexivity.
  - cbn [forallb] in A. apply andb_true_iff in A. destruct A as (A1 & A2). unfold xlabels in B. cbn [all_some] in B. destruct (xlabel K l) as [k|] eqn:X; [|discriminate]. cbn [pbind] in B.
    destruct (all_some (xlabel K) ls) as [ks2|] eqn:Y; [|discriminate]. injection B as <-. specialize (IHl ks2 body r A2 Y). cbn [existsb].
    destruct ls as [|l2 ls].
    + injection Y as <-. cbn [label_clauses app existsb]. rewrite orb_false_r. destruct (d =? k) eqn:Ed; [|intros m; rewrite (find_label_K _ _ _ _ _ _ A1 X), Ed; reflexivity].
      eexists. split; [intros m; rewrite (find_label_K _ _ _ _ _ _ A1 X), Ed; reflexivity|constructor].
    + change (label_clauses (l :: l2 :: ls) body ++ r) with ((Some (val_expr (cap l)), [], true) :: label_clauses (l2 :: ls) body ++ r). 
      destruct (d =? k) eqn:Ed; cbn [orb].
      2:{ destruct (existsb (Z.eqb d) ks2).
          - destruct IHl as (cs & F1 & F2). exists cs. split; [|exact F2]. intros m. rewrite (find_label_K _ _ _ _ _ _ A1 X), Ed. apply F1.
          - intros m. rewrite (find_label_K _ _ _ _ _ _ A1 X), Ed. apply IHl. }
      eexists. split; [intros m; rewrite (find_label_K _ _ _ _ _ _ A1 X), Ed; reflexivity|]. constructor. clear.
      revert l2. induction ls as [|a ls IHls]; intros l2; [constructor|]. change (label_clauses (l2 :: a :: ls) body ++ r) with ((Some (val_expr (cap l2)), [], true) :: label_clauses (a :: ls) body ++ r). constructor. apply IHls.
Qed.
Fixpoint gx_cases (P : expr) (l : list (list string * decl)) : option (list clause) :=
  match l with [] => Some [] | c :: l => do a <- gx_field (snd c) P ; do b <- gx_cases P l ; Some (label_clauses (fst c) a ++ b) end.
Lemma find_cases_K P cases : forall arms cls r, el_arms ds cases = Some arms -> gx_cases P cases = Some cls -> forallb (fun x => forallb (label_ok K bk) (fst x)) cases = true ->
  match find (fun a => existsb (Z.eqb d) (fst a)) arms with
  | Some a => exists dc body cs, In dc (map snd cases) /\ el_arm K dc = Some (snd a) /\ gx_field dc P = Some body /\
                (forall m, fc m (cls ++ r) = GRet (Some cs)) /\ falls body cs
  | None => forall m, fc m (cls ++ r) = fc m r
  end.
Proof.
  induction cases as [|[ls dc] cases IHc]; intros arms cls r A B N.
  - injection A as <-. injection B as <-. cbn [find]. intros m. reflexivity.
  - cbn [el_arms fst snd] in A. fold K in A. destruct (xlabels K ls) as [ks|] eqn:A1; [|discriminate]. destruct (el_arm K dc) as [a|] eqn:A2; [|discriminate].
    destruct (el_arms ds cases) as [arms2|] eqn:A3; [|discriminate]. injection A as <-.
    cbn [gx_cases fst snd] in B. destruct (gx_field dc P) as [body|] eqn:B1; [|discriminate]. destruct (gx_cases P cases) as [cls2|] eqn:B2; [|discriminate]. injection B as <-.
    cbn [forallb fst] in N. apply andb_true_iff in N. destruct N as (N1 & N2). specialize (IHc _ _ r eq_refl eq_refl N2).
    rewrite <- app_assoc. pose proof (find_labels_K ls ks body (cls2 ++ r) N1 A1) as F. cbn [find fst]. destruct (existsb (Z.eqb d) ks).
    + destruct F as (cs & F1 & F2). exists dc, body, cs. cbn [map snd]. split; [left; reflexivity|]. auto.
    + destruct (find (fun a => existsb (Z.eqb d) (fst a)) arms2); [|intros m; rewrite F; apply IHc].
      destruct IHc as (dc' & body' & cs & I & R1 & R2 & R3 & R4). exists dc', body', cs. split; [right; exact I|]. do 2 (split; [assumption|]). split; [|exact R4]. intros m. rewrite F. apply R3.
Qed.
End Switch.

Lemma find_default_labels_K ls body r : find_defaultH (label_clauses ls body ++ r) = find_defaultH r.
Proof.
  induction ls as [|l ls IHl]; [reflexivity|]. destruct ls as [|l2 ls]; [reflexivity|].
  change (label_clauses (l :: l2 :: ls) body ++ r) with ((Some (val_expr (cap l)), [], true) :: label_clauses (l2 :: ls) body ++ r). exact IHl.
Qed.
Lemma find_default_cases_K P cases : forall cls r, gx_cases P cases = Some cls -> find_defaultH (cls ++ r) = find_defaultH r.
Proof.
  induction cases as [|[ls dc] cases IHc]; intros cls r B; [injection B as <-; reflexivity|].
  cbn [gx_cases fst snd] in B. destruct (gx_field dc P) as [body|]; [|discriminate]. destruct (gx_cases P cases) as [cls2|] eqn:B2; [|discriminate]. injection B as <-.
  rewrite <- app_assoc, find_default_labels_K. apply IHc. reflexivity.
Qed.

Lemma gx_union_K st sn cases def P : gx (typeUnion (declName st sn) cases def) P =
  do a <- gx_dt st (fieldP P sn) ; do b <- gx_cases P cases ; do c <- match def with Some d => do a <- gx_field d P ; Some [(None, a, false)] | None => Some [] end ;
  Some (a ++ [SSwitch (ESel (EParen P) (cap sn)) (b ++ c)]).
Proof.
  set (go := fix go (l : list (list string * decl)) : option (list clause) :=
       match l with [] => Some [] | c :: l => do a <- gx_field (snd c) P ; do b <- go l ; Some (label_clauses (fst c) a ++ b) end).
  assert (gx_cases P cases = go cases) as -> by (induction cases as [|c l IHl]; cbn; [reflexivity|rewrite IHl; reflexivity]). reflexivity.
Qed.

Lemma pick_fields_K d arms def s x : match pick_arm d arms def with Some (Some (f, u)) => onK_field (xdrK n E u) s x f | _ => Ret (s, x) end =
  xdrK_fields (xdrK n E) (match pick_arm d arms def with Some a => opt_list a | None => [] end) s x.
Proof.
  destruct (pick_arm d arms def) as [[[f u]|]|]; cbn; try reflexivity. destruct (onK_field (xdrK n E u) s x f) as [[? ?]| |]; reflexivity.
Qed.

Lemma sim_union_K stt sn cases def c P ss b arr path v0 locs s x s' x' :
  el K (typeUnion (declName stt sn) cases def) = Some c -> gx (typeUnion (declName stt sn) cases def) P = Some ss -> nok K E arr (typeUnion (declName stt sn) cases def) = true ->
  pexpr b P -> (b = true -> arr = true) -> oklocH locs -> ok_ptrH G v0 locs P path -> path_loadH v0 path = Some x -> xdrK (S n) E c s x = Ret (s', x') -> simK v0 locs path s ss s' x'.
Proof.
  intros A B N HP Hb Hl Q L H. rewrite (el_union ds) in A. fold K in A. rewrite gx_union_K in B. rewrite (nok_union ds) in N. fold K in N.
  apply andb_true_iff in N. destruct N as (N & N4). apply andb_true_iff in N. destruct N as (N & N3). apply andb_true_iff in N. destruct N as (N1 & N2).
  destruct (el_dt K stt) as [cst|] eqn:A1; [|discriminate]. cbn [pbind] in A. destruct (el_arms ds cases) as [arms|] eqn:A2; [|discriminate]. cbn [pbind] in A.
  destruct (match def with Some d => do a <- el_arm K d ; Some (Some a) | None => Some None end) as [ed|] eqn:A3; [|discriminate]. injection A as <-.
  destruct (gx_dt stt (fieldP P sn)) as [ss1|] eqn:B1; [|discriminate]. cbn [pbind] in B. destruct (gx_cases P cases) as [cls|] eqn:B2; [|discriminate]. cbn [pbind] in B.
  destruct (match def with Some d => do a <- gx_field d P ; Some [(None, a, false)] | None => Some [] end) as [cd|] eqn:B3; [|discriminate]. injection B as <-.
  unfold disc_ok in N1. rewrite A1 in N1. destruct (disc_kind E (S (List.length E)) cst) as [bk|] eqn:Dk; [|discriminate].
  destruct x as [| | | | | | |l]; try discriminate. cbn [xdrK] in H. destruct (onK_field (xdrK n E cst) s (HStruct l) (cap sn)) as [[s1 x1]| |] eqn:F; try discriminate. cbn [obind] in H.
  destruct (hfield_disc x1 (cap sn)) as [d|] eqn:Fd; [|discriminate]. rewrite pick_fields_K in H.
  (* the discriminant *)
  eapply sim_app_K; [eapply sim_field_K; eassumption|]. intros v1 S1. pose proof (store_load_K _ _ _ _ S1) as L1. pose proof (ok_ptr_store_K _ _ _ _ _ _ _ Q S1) as Q1.
  unfold onK_field in F. destruct (lookup (cap sn) l) as [y|] eqn:Fy; [|discriminate]. destruct (xdrK n E cst s y) as [[s2 y1]| |] eqn:X; try discriminate. cbn in F. injection F as <- <-.
  pose proof (disc_kind_val_K _ _ _ _ _ _ _ _ Dk X) as Kd. cbn [hfield_disc] in Fd. rewrite (lookup_update_same _ _ _ _ Fy) in Fd.
  assert (Ev : forall m, evvK G m s2 (mkHF v1 locs) (ESel (EParen P) (cap sn)) = GRet (HGV y1)).
  { intros m. destruct (evv_inv_K _ _ _ _ _ _ (ok_ptr_now_K _ _ _ _ _ m s2 _ Q1 L1)) as (o & E1 & E2). unfold evvK. cbn [evK]. rewrite E1. cbn [gbind]. rewrite E2. cbn [gbind sub rvalH loadH hf_recv].
    rewrite path_load_app_K, L1. cbn [step_loadH]. rewrite (lookup_update_same _ _ _ _ Fy). destruct y1; try reflexivity. destruct Kd. }
  assert (Arm : forall dc a body, nok_d K E arr dc = true -> el_arm K dc = Some a -> gx_field dc P = Some body -> xdrK_fields (xdrK n E) (opt_list a) s2 (HStruct (update (cap sn) y1 l)) = Ret (s', x') ->
            simK v1 locs path s2 body s' x').
  { intros dc a body Na Aa Ba Ha. eapply sim_arm_K; eassumption. }
  unfold pick_arm in H. destruct (find (fun a => existsb (Z.eqb d) (fst a)) arms) as [a|] eqn:Fi.
  - (* a case *)
    pose proof (find_cases_K bk y1 d v1 locs s2 Kd Fd Hl P cases arms cls cd A2 B2 N1) as F0. rewrite Fi in F0. destruct F0 as (dc & body & cs & I & Ea & Eb & F1 & F2).
    assert (Nd : nok_d K E arr dc = true). { apply in_map_iff in I. destruct I as (cc & <- & I). rewrite forallb_forall in N3. apply (N3 _ I). }
    destruct (Arm dc (snd a) body Nd Ea Eb H) as (v2 & S2 & T). exists v2. split; [exact S2|]. eapply evt_impl; [intros m W; rewrite seq_one_K; exact W|].
    apply evt_S. generalize (run_falls_K _ _ _ _ _ _ _ F2 T). apply evt_impl. intros m W. cbn [execK]. rewrite Ev. cbn [gbind]. rewrite F1. cbn [gbind]. exact W.
  - (* no case *)
    pose proof (find_cases_K bk y1 d v1 locs s2 Kd Fd Hl P cases arms cls cd A2 B2 N1) as F0. rewrite Fi in F0.
    assert (F1 : forall m, find_clauseK G m s2 (mkHF v1 locs) (HGV y1) (cls ++ cd) = GRet None).
    { intros m. rewrite F0. destruct def as [dd|]; [|injection B3 as <-; reflexivity]. destruct (gx_field dd P); [|discriminate]. injection B3 as <-. reflexivity. }
    destruct def as [dd|].
    + destruct (el_arm K dd) as [a|] eqn:Ea; [|discriminate]. injection A3 as <-. destruct (gx_field dd P) as [body|] eqn:Eb; [|discriminate]. injection B3 as <-.
      destruct (Arm dd a body N4 Ea Eb H) as (v2 & S2 & T). exists v2. split; [exact S2|]. eapply evt_impl; [intros m W; rewrite seq_one_K; exact W|].
      apply evt_S. generalize (run_falls_K body [(None, body, false)] _ _ _ _ _ (fa_here _ _ _) T). apply evt_impl. intros m W. cbn [execK]. rewrite Ev. cbn [gbind]. rewrite F1. cbn [gbind].
      rewrite (find_default_cases_K _ _ _ _ B2). cbn [find_defaultH]. exact W.
    + injection A3 as <-. injection B3 as <-. injection H as <- <-. exists v1. split; [apply path_store_same_K, L1|]. eapply evt_impl; [intros m W; rewrite seq_one_K; exact W|].
      apply evt_S, evt_now. intros m. cbn [execK]. rewrite Ev. cbn [gbind]. rewrite F1. cbn [gbind]. rewrite (find_default_cases_K _ _ _ _ B2). reflexivity.
Qed.

(** ** Named types *)
Lemma sim_call_K x body v s s' y P path v0 locs : lookup x (g_meths G) = Some body -> ok_ptrH G v0 locs P path -> path_loadH v0 path = Some v ->
  evt (fun m => seqK (ex m) s (frame0H v) body = GRet (s', frame0H y)) ->
  simK v0 locs path s [SMeth (EConv (GPtr (GNamed x)) P) "Xdr" [EVar "xs"]] s' y.
Proof.
  intros F Q L H. destruct (path_store_some_K _ _ _ y L) as (v1 & S1 & _). exists v1. split; [exact S1|]. eapply evt_impl; [intros m W; rewrite seq_one_K; exact W|].
  apply evt_S. revert H. apply evt_impl. intros m W. cbn [execK]. change (String.eqb "Xdr" "Xdr") with true. cbv iota. rewrite F.
  rewrite (ok_ptr_now_K _ _ _ _ _ m s _ Q L). cbn [gbind throughK loadH hf_recv]. rewrite L. cbn [some_or gbind].
  rewrite (block_of_K m s (frame0H v) body s' y [] eq_refl W). cbn [gbind hf_recv storeH]. rewrite S1. reflexivity.
Qed.
End Step.

Lemma sim_def_K g body c n s x s' x' : (forall m, (m <= n)%nat -> forall t c P ss b arr path v0 locs s x s' x',
  el_dt K t = Some c -> gx_dt t P = Some ss -> nok_dt K E arr t = true -> pexpr b P -> (b = true -> arr = true) -> oklocH locs ->
  ok_ptrH G v0 locs P path -> path_loadH v0 path = Some x -> xdrK m E c s x = Ret (s', x') -> simK v0 locs path s ss s' x') ->
  defrel ds E g body c -> xdrK n E c s x = Ret (s', x') -> evt (fun m => seqK (ex m) s (frame0H x) body = GRet (s', frame0H x')).
Proof.
  intros IH R H. destruct R as [t g body c A B C N|t g body c A B C N].
  - destruct (IH n ltac:(lia) t c (EVar "v") body false false [] x [] s x s' x' B C N pe_v ltac:(discriminate) okloc_nil_K (ok_v_K _ _ _ okloc_nil_K) eq_refl H) as (v1 & S1 & T).
    injection S1 as ->. exact T.
  - destruct n as [|n]; [discriminate|]. destruct x as [| | | | | | |l]; try discriminate. cbn [xdrK xdrK_fields] in H. unfold onK_field in H.
    destruct (lookup "P" l) as [y|] eqn:F; [|discriminate]. destruct (xdrK n E (CPtr c) s y) as [[s1 y1]| |] eqn:X; try discriminate. injection H as <- <-.
    assert (simK (HStruct l) [] [PField "P"] s body s1 y1) as (v1 & S1 & T).
    { eapply (IH n ltac:(lia) (declTypePtr t)); [|exact C|exact N|apply pe_p|discriminate|apply okloc_nil_K|eapply ok_v_p_K; [apply okloc_nil_K|reflexivity|exact F]| |exact X].
      - change (pbind (el K t) (fun c => Some (CPtr c)) = Some (CPtr c)). fold K in B. rewrite B. reflexivity.
      - cbn. rewrite F. reflexivity. }
    cbn in S1. rewrite F in S1. injection S1 as <-. exact T.
Qed.

Theorem sim_main_K n : forall t c P ss b arr path v0 locs s x s' x',
  el_dt K t = Some c -> gx_dt t P = Some ss -> nok_dt K E arr t = true -> pexpr b P -> (b = true -> arr = true) -> oklocH locs ->
  ok_ptrH G v0 locs P path -> path_loadH v0 path = Some x -> xdrK n E c s x = Ret (s', x') -> simK v0 locs path s ss s' x'.
Proof.
  induction n as [n IHn] using lt_wf_ind. intros t c P ss b arr path v0 locs s x s' x' A B N HP Hb Hl Q L H. destruct n as [|n]; [discriminate|].
  pose proof (IHn n (Nat.lt_succ_diag_r n)) as IH.
  destruct t as [t|t sz|t sz|sz|sz|sz|t].
  - change (gx t P = Some ss) in B. change (el K t = Some c) in A. change (nok K E arr t = true) in N.
    destruct t as [u|u| | | | |its|items|sw cases def|y]; try discriminate.
    + injection A as <-. injection B as <-. destruct u; destruct x; try discriminate; cbn [xdrK] in H; (eapply sim_prim_K; [exact Q|exact L|]); cbn [lib_funK String.eqb Ascii.eqb Bool.eqb];
        match type of H with (let '(_, _) := ?o in _) = _ => destruct o end; injection H as <- <-; reflexivity.
    + injection A as <-. injection B as <-. destruct u; destruct x; try discriminate; cbn [xdrK] in H; (eapply sim_prim_K; [exact Q|exact L|]); cbn [lib_funK String.eqb Ascii.eqb Bool.eqb];
        match type of H with (let '(_, _) := ?o in _) = _ => destruct o end; injection H as <- <-; reflexivity.
    + injection A as <-. injection B as <-. destruct x; try discriminate; cbn [xdrK] in H; (eapply sim_prim_K; [exact Q|exact L|]); cbn [lib_funK String.eqb Ascii.eqb Bool.eqb];
        match type of H with (let '(_, _) := ?o in _) = _ => destruct o end; injection H as <- <-; reflexivity.
    + rewrite (el_struct ds) in A. destruct (el_items ds items) as [fs|] eqn:A1; [|discriminate]. injection A as <-. destruct x; try discriminate. cbn [xdrK] in H.
      eapply sim_fields_K; eassumption.
    + destruct sw as [|st sn]; [discriminate|]. eapply sim_union_K; eassumption.
    + injection A as <-. injection B as <-. pose proof (type_rel _ _ _ _ Hsup (cap y)) as R. 
      assert (H' : match lookup (cap y) E with Some t => xdrK n E t s x | None => Panic end = Ret (s', x')) by (destruct x; exact H).
      destruct (lookup (cap y) E) as [cc|]; [|discriminate]. destruct R as (g & body & _ & F & R).
      eapply sim_call_K; [exact F|exact Q|exact L|]. eapply sim_def_K; [|exact R|exact H']. intros m Lm. apply IHn. lia.
  - discriminate.
  - change (pbind (xbound K sz) (fun m => do c <- el K t ; Some (CVarArray m c)) = Some c) in A. change (pbind (gt t) (fun e => do b <- gx t (elemP P) ; Some [SBlock (arr_body P sz e b)]) = Some ss) in B.
    change (negb arr && bound_ok K sz && nok K E true t = true) in N. apply andb_true_iff in N. destruct N as (N & N3). apply andb_true_iff in N. destruct N as (N1 & N2).
    assert (b = false) as -> by (destruct b; [rewrite (Hb eq_refl) in N1; discriminate|reflexivity]).
    destruct (xbound K sz) as [m|] eqn:A1; [|discriminate]. cbn [pbind] in A. destruct (el K t) as [ce|] eqn:A2; [|discriminate]. injection A as <-.
    destruct (gt t) as [g|] eqn:B1; [|discriminate]. cbn [pbind] in B. destruct (gx t (elemP P)) as [body|] eqn:B2; [|discriminate]. injection B as <-.
    destruct x; try discriminate. eapply sim_arr_K; eassumption.
  - change (pbind (xval K sz) (fun k => if (0 <=? k) && (k <=? MaxUint32) then Some (COpaque (Z.to_nat k)) else None) = Some c) in A. destruct (xval K sz) as [k|]; [|discriminate]. cbn [pbind] in A.
    destruct ((0 <=? k) && (k <=? MaxUint32)); [|discriminate]. injection A as <-. injection B as <-. destruct x; try discriminate. cbn [xdrK] in H. destruct (KXdrArray s bs) as [s1 bs1] eqn:X. injection H as <- <-.
    eapply sim_opaque_K; eassumption.
  - change (pbind (xbound K sz) (fun m => Some (CVarOpaque m)) = Some c) in A. destruct (xbound K sz) as [m|] eqn:A1; [|discriminate]. injection A as <-. injection B as <-.
    destruct x; try discriminate. cbn [xdrK] in H. eapply sim_bound_K; try eassumption. cbn [lib_funK String.eqb Ascii.eqb Bool.eqb].
    match type of H with (let '(_, _) := ?o in _) = _ => destruct o end; injection H as <- <-; reflexivity.
  - change (pbind (xbound K sz) (fun m => Some (CString m)) = Some c) in A. destruct (xbound K sz) as [m|] eqn:A1; [|discriminate]. injection A as <-. injection B as <-.
    destruct x; try discriminate. cbn [xdrK] in H. eapply sim_bound_K; try eassumption. cbn [lib_funK String.eqb Ascii.eqb Bool.eqb].
    match type of H with (let '(_, _) := ?o in _) = _ => destruct o end; injection H as <- <-; reflexivity.
  - change (pbind (el K t) (fun c => Some (CPtr c)) = Some c) in A. change (pbind (gt t) (fun e => do b <- gx t (derefP P) ; Some (ptr_body P e b)) = Some ss) in B.
    destruct (el K t) as [ce|] eqn:A2; [|discriminate]. injection A as <-.
    destruct (gt t) as [g|] eqn:B1; [|discriminate]. cbn [pbind] in B. destruct (gx t (derefP P)) as [body|] eqn:B2; [|discriminate]. injection B as <-.
    destruct x; try discriminate. eapply sim_ptr_K; eassumption.
Qed.

(** A call of the generated method. *)
Theorem sim_method_K x c n s v r : lookup x E = Some c -> xdrK n E (CIdent x) s v = Ret r -> evt (fun m => callK G m x s v = GRet r).
Proof.
  intros F H. destruct n as [|n]; [discriminate|]. destruct r as [s' v'].
  assert (H' : xdrK n E c s v = Ret (s', v')) by (cbn [xdrK] in H; rewrite F in H; destruct v; exact H).
  pose proof (type_rel _ _ _ _ Hsup x) as R. rewrite F in R. destruct R as (g & body & _ & M & R).
  generalize (sim_def_K g body c n s v s' v' (fun m _ => sim_main_K m) R H'). apply evt_impl. intros m W. unfold callK. rewrite M.
  rewrite (block_of_K m s (frame0H v) body s' v' [] eq_refl W). reflexivity.
Qed.
End Sim.

End Grow.
