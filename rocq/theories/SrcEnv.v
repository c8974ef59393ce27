(** The assumptions of SrcRpc.v can be met: by running the models of what is elsewhere. *)
From Verif Require Import GoLex SrcAst SrcProg.
From Verif Require Import Bytes XdrLib Types Interp Heap HeapP HeapX RpcTypes Io Client ClientP Server SrcSem SrcLib SrcLibB SrcLibC SrcRpc SrcMsg SrcCli.
Open Scope string_scope.
Open Scope Z_scope.
Open Scope list_scope.

(** ** States read back from their cells *)
Fixpoint bytes_str (l : list byte) : string := match l with [] => EmptyString | b :: l => String (ascii_of_byte b) (bytes_str l) end.
Lemma bytes_str_inv s : bytes_str (str_bytes s) = s.
Proof. induction s as [|c s IH]; [reflexivity|]. cbn [str_bytes bytes_str]. rewrite ascii_of_byte_of_ascii, IH. reflexivity. Qed.
Definition of_verr (v : gv) : option xerr :=
  match v with
  | WErr f [WNum _ w; WNum _ g] =>
      if String.eqb (bytes_str f) "Not enough bytes: wanted %d, got %d" then Some (ENotEnoughGot w g) else Some (ENotEnoughHave w g)
  | WErr f _ => Some (EMsg (bytes_str f))
  | _ => None
  end.
Lemma of_verr_inv e : of_verr (verr e) = e.
Proof. destruct e as [[s| |]|]; [|reflexivity..]. cbn [of_verr verr]. rewrite bytes_str_inv. reflexivity. Qed.
Definition of_state (v : option gv) : option hst :=
  match v with
  | Some (WStruct _ [(_, e); (_, WBool r); (_, WSl b)]) => Some (mkHst (of_verr e) r b)
  | _ => None
  end.
Lemma of_state_inv s : of_state (Some (vstate s)) = Some s.
Proof. unfold of_state, vstate. rewrite of_verr_inv. destruct s; reflexivity. Qed.

(** ** Values put back *)
Fixpoint hsh (v : hval) : hval :=
  match v with
  | HInt _ => HInt 0
  | HBool _ => HBool false
  | HArr _ => HArr []
  | HBytes _ => HBytes None
  | HStr _ => HStr []
  | HSlice _ => HSlice None
  | HPtr _ => HPtr None
  | HStruct l => HStruct (map (fun fx => (fst fx, hsh (snd fx))) l)
  end.
Fixpoint fill (g : gv) (v : hval) : gv :=
  match g, v with
  | WBool _, HBool b => WBool b
  | WNum t _, HInt z => WNum t z
  | WStr _, HArr bs => WStr bs
  | WSl _, HBytes o => WSl o
  | WStruct t fs, HStruct l =>
      WStruct t ((fix go (fs : list (string * gv)) (l : list (string * hval)) :=
        match fs, l with (f, g) :: fs, (_, x) :: l => (f, fill g x) :: go fs l | _, _ => [] end) fs l)
  | _, _ => g
  end.
Lemma fill_ok : forall g v, hsh v = hsh (to_h g) -> to_h (fill g v) = v /\ gtype (fill g v) = gtype g.
Proof.
  fix IH 1. intros [| | | | | | | | |t fs| | | | | |] v H.
  all: try (destruct v; cbn in H; try discriminate H; split; reflexivity).
  all: try (destruct v as [| | | | | | |l']; cbn in H; try discriminate H; cbn; auto; destruct l'; [auto|discriminate H]).
  destruct v as [| | | | | | |l]; cbn in H; try discriminate H. injection H as H. cbn [fill to_h gtype].
  set (go := fix go (fs : list (string * gv)) (l : list (string * hval)) := _).
  assert (K : map (fun f : string * gv => (fst f, to_h (snd f))) (go fs l) = l /\
              map (fun f : string * gv => (fst f, gtype (snd f))) (go fs l) = map (fun f : string * gv => (fst f, gtype (snd f))) fs).
  { revert l H. induction fs as [|[f g] fs IHf]; intros [|[f' x] l] H; try discriminate H; [split; reflexivity|].
    cbn [map fst snd] in H. injection H as H1 H2 H3. destruct (IH g x H2) as [K1 K2]. destruct (IHf l H3) as [K3 K4].
    cbn [go map fst snd]. fold go. rewrite K1, K2, K3, K4, H1. split; reflexivity. }
  destruct K as [-> ->]. auto.
Qed.

Lemma hsh_update f x x' l : lookup f l = Some x -> hsh x' = hsh x -> hsh (HStruct (update f x' l)) = hsh (HStruct l).
Proof.
  intros H E. cbn. f_equal. induction l as [|[g y] l IH]; [discriminate H|]. cbn in *. destruct (String.eqb f g).
  - injection H as ->. cbn. rewrite E. reflexivity.
  - cbn. rewrite (IH H). reflexivity.
Qed.
Definition keeps (X : hcode) : Prop := forall h s v h' s' v', X h s v = Ret (h', s', v') -> hsh v' = hsh v.
Lemma keeps_field X f h s v h' s' v' : keeps X -> hon_field X h s v f = Ret (h', s', v') -> hsh v' = hsh v.
Proof.
  intros K. destruct v; try discriminate. cbn [hon_field]. destruct (lookup f l) as [x|] eqn:E; [|discriminate].
  destruct (X h s x) as [[[h1 s1] x1]| |] eqn:EX; try discriminate. cbn [obind]. intros H. injection H as _ _ <-.
  eapply hsh_update; [exact E|]. eapply K. exact EX.
Qed.
Lemma keeps_fields X fs : (forall t, keeps (X t)) -> keeps (hxdr_fields X fs).
Proof.
  intros K. induction fs as [|[f t] fs IH]; intros h s v h' s' v'; cbn [hxdr_fields].
  - intros H. injection H as _ _ <-. reflexivity.
  - destruct (hon_field (X t) h s v f) as [[[h1 s1] v1]| |] eqn:E; try discriminate. cbn [obind]. intros H.
    rewrite (IH _ _ _ _ _ _ H). eapply keeps_field; [apply K|exact E].
Qed.
Lemma hxdr_keeps grow n E : forall t, keeps (hxdr grow n E t).
Proof.
  induction n as [|n IH]; intros t h s v h' s' v'; [discriminate|]. cbn [hxdr].
  destruct t, v; try discriminate.
  all: try (match goal with |- context [lookup ?x ?y] => destruct (lookup x y); [intros H; exact (IH _ _ _ _ _ _ _ H)|discriminate] end).
  all: try (match goal with |- context [let '(_, _) := ?p in _] => destruct p as [[? ?] ?] end; intros H; injection H as _ _ <-; reflexivity).
  all: try (intros H; exact (keeps_fields _ _ IH _ _ _ _ _ _ H)).
  all: intros H; repeat match type of H with
    | obind ?p _ = _ => destruct p eqn:?; cbn [obind] in H; try discriminate H
    | context [match ?p with _ => _ end] => destruct p eqn:?; cbn [obind] in H; try discriminate H
    | Ret (_, _, ?v) = Ret (_, _, ?v') => injection H as _ _ H; subst v'
    end; try reflexivity.
  all: repeat match goal with K : hon_field _ _ _ _ _ = Ret _ |- _ => apply keeps_field in K; [|apply IH] end; try congruence.
  all: subst; cbn [hsh]; try reflexivity.
Qed.

(** A value put into memory. *)
Fixpoint alloc (v : val) (h : heap) : heap * hval :=
  match v with
  | VInt z => (h, HInt z)
  | VBool b => (h, HBool b)
  | VArr bs => (h, HArr bs)
  | VBytes None => (h, HBytes None)
  | VBytes (Some bs) => (h ++ [bs], HBytes (arr h (List.length bs)))
  | VStr bs => (h, HStr bs)
  | VSlice None => (h, HSlice None)
  | VSlice (Some l) =>
      let r := (fix go (l : list val) (h : heap) := match l with [] => (h, []) | v :: l => let (h, x) := alloc v h in let (h, xs) := go l h in (h, x :: xs) end) l h in
      (fst r, HSlice (Some (snd r)))
  | VPtr None => (h, HPtr None)
  | VPtr (Some v) => let r := alloc v h in (fst r, HPtr (Some (snd r)))
  | VStruct l =>
      let r := (fix go (l : list (string * val)) (h : heap) :=
        match l with [] => (h, []) | (f, v) :: l => let (h, x) := alloc v h in let (h, xs) := go l h in (h, (f, x) :: xs) end) l h in
      (fst r, HStruct (snd r))
  end.
Lemma alloc_ok : forall v h, differs_at none h (fst (alloc v h)) /\ valid_in (fst (alloc v h)) (snd (alloc v h)) /\ deref (fst (alloc v h)) (snd (alloc v h)) = v.
Proof.
  fix IH 1. assert (Z : forall h v, hslices v = [] -> valid_in h v) by (intros h v E; unfold valid_in; rewrite E; constructor).
  intros [z|b|bs|[bs|]|bs|[l|]|[v|]|l] h; cbn [alloc fst snd].
  all: try (split; [apply differs_refl|split; [apply Z; reflexivity|reflexivity]]).
  - split; [apply differs_new|]. split; [constructor; [apply (arr_valid h bs); reflexivity|constructor]|].
    pose proof (arr_read h bs _ eq_refl) as K. unfold arr in *. cbn [gread] in K. cbn [deref]. rewrite K. reflexivity.
  - set (go := fix go (l : list val) (h : heap) := _).
    assert (K : forall l h, differs_at none h (fst (go l h)) /\ Forall (valid_in (fst (go l h))) (snd (go l h)) /\ map (deref (fst (go l h))) (snd (go l h)) = l).
    { clear l h. induction l as [|v l IHl]; intros h; [split; [apply differs_refl|split; [constructor|reflexivity]]|].
      cbn [go]. fold go. specialize (IH v h). destruct (alloc v h) as [h1 x]. specialize (IHl h1). destruct (go l h1) as [h2 xs]. cbn [fst snd] in *.
      destruct IH as (A1 & A2 & A3), IHl as (B1 & B2 & B3). split; [eapply differs_trans; eassumption|].
      split; [constructor; [eapply valid_differs; eassumption|exact B2]|]. cbn [map]. rewrite B3, (deref_differs h1 h2) by assumption. rewrite A3. reflexivity. }
    destruct (K l h) as (K1 & K2 & K3). split; [exact K1|]. split.
    + unfold valid_in. cbn [hslices]. apply Forall_forall. intros sl Hi. apply in_flat_map in Hi. destruct Hi as (x & Hx & Hi).
      rewrite Forall_forall in K2. specialize (K2 x Hx). unfold valid_in in K2. rewrite Forall_forall in K2. apply K2. exact Hi.
    + cbn [deref option_map]. rewrite K3. reflexivity.
  - destruct (IH v h) as (A1 & A2 & A3). split; [exact A1|]. split; [exact A2|]. cbn [deref option_map]. rewrite A3. reflexivity.
  - set (go := fix go (l : list (string * val)) (h : heap) := _).
    assert (K : forall l h, differs_at none h (fst (go l h)) /\ Forall (fun fx => valid_in (fst (go l h)) (snd fx)) (snd (go l h)) /\
        map (fun fx => (fst fx, deref (fst (go l h)) (snd fx))) (snd (go l h)) = l).
    { clear l h. induction l as [|[f v] l IHl]; intros h; [split; [apply differs_refl|split; [constructor|reflexivity]]|].
      cbn [go]. fold go. specialize (IH v h). destruct (alloc v h) as [h1 x]. specialize (IHl h1). destruct (go l h1) as [h2 xs]. cbn [fst snd] in *.
      destruct IH as (A1 & A2 & A3), IHl as (B1 & B2 & B3). split; [eapply differs_trans; eassumption|].
      split; [constructor; [eapply valid_differs; eassumption|exact B2]|]. cbn [map fst snd]. rewrite B3, (deref_differs h1 h2) by assumption. rewrite A3. reflexivity. }
    destruct (K l h) as (K1 & K2 & K3). split; [exact K1|]. split.
    + unfold valid_in. cbn [hslices]. apply Forall_forall. intros sl Hi. apply in_flat_map in Hi. destruct Hi as (x & Hx & Hi).
      rewrite Forall_forall in K2. specialize (K2 x Hx). unfold valid_in in K2. rewrite Forall_forall in K2. apply K2. exact Hi.
    + cbn [deref]. rewrite K3. reflexivity.
Qed.

(** ** The environment *)
Section Env.
Context {S U : Type}.
Variable grow : nat -> nat -> nat.
Hypothesis grow_ok : grows grow.
Variable N : nat.
Variable C : conn S.
Variable rw : nat.
Variable hs : nat -> handler U.
Notation mem := (mem (world S U)).

Definition env_msg (p q : nat) (m : mem) : outcome (mem * list gv) :=
  match of_state (nth_error (m_cells m) p), nth_error (m_cells m) q with
  | Some s, Some g =>
      '(h', s', v') <- hxdr grow N rpc_env msg_t (m_heap m) s (to_h g) ;;
      Ret (mkMem h' (set_nth (set_nth (m_cells m) p (vstate s')) q (fill g v')) (m_world m), [])
  | _, _ => Panic
  end.
Definition env_xdr (i p : nat) (m : mem) : outcome (mem * list gv) :=
  match of_state (nth_error (m_cells m) p), nth_error (w_objs (m_world m)) i with
  | Some s, Some (E, t, v) =>
      '(h', s', v') <- hxdr grow N E t (m_heap m) s v ;;
      Ret (mkMem h' (set_nth (m_cells m) p (vstate s')) (set_obj (m_world m) i (E, t, v')), [])
  | _, _ => Panic
  end.
Definition env_write (o : option slice) (m : mem) : outcome (mem * list gv) :=
  let bs := gread (m_heap m) o in
  let r := c_write C (w_conn (m_world m)) bs in
  Ret (mkMem (m_heap m) (m_cells m) (set_conn (m_world m) (fst r)), [WNum "int" (zlen bs); vio (snd r)]).
Definition env_read (o : option slice) (m : mem) : outcome (mem * list gv) :=
  '(s', bs, e) <- read_full N C (w_conn (m_world m)) (glen o) [] ;;
  Ret (mkMem (match e with None => hstore (m_heap m) o bs | Some _ => m_heap m end) (m_cells m) (set_conn (m_world m) s'), [WNum "int" (zlen bs); vio e]).
Definition env_handler (k p : nat) (m : mem) : outcome (mem * list gv) :=
  match of_state (nth_error (m_cells m) p) with
  | Some s =>
      let w := m_world m in
      '(u, y, e) <- hs k N (habs (m_heap m) s) (w_user w) ;;
      match y with
      | None => Ret (mkMem (m_heap m) (m_cells m) (mkWorld (w_conn w) (w_objs w) u (w_log w)), [WNil; verr e])
      | Some y =>
          let r := alloc (xv_val y) (m_heap m) in
          Ret (mkMem (fst r) (m_cells m) (mkWorld (w_conn w) (w_objs w ++ [(xv_env y, xv_ty y, snd r)]) u (w_log w)), [WObj (List.length (w_objs w)); verr e])
      end
  | None => Panic
  end.
Definition env_log (e : event) (m : mem) : mem := mkMem (m_heap m) (m_cells m) (add_log (m_world m) e).
Definition the_ext (f : string) (args : list gv) (m : mem) : outcome (mem * list gv) :=
  if String.eqb f "xdr.MakeWriter" then xdr_text grow "MakeWriter" args m
  else if String.eqb f "xdr.MakeReader" then xdr_text grow "MakeReader" args m
  else if String.eqb f "XdrState.Error" then xdr_text grow "XdrState.Error" args m
  else if String.eqb f "XdrState.WriteBuf" then xdr_text grow "XdrState.WriteBuf" args m
  else if String.eqb f "fmt.Fprintf" then Ret (env_log (EPrint args) m, [WNum "int" 0; WNil])
  else if String.eqb f "Rpc_msg.Xdr" then match args with [WPtr q; WPtr p] => env_msg p q m | _ => Panic end
  else if String.eqb f ".Xdr" then match args with [WObj i; WPtr p] => env_xdr i p m | _ => Panic end
  else if String.eqb f ".Write" then match args with [WObj _; WSl o] => env_write o m | _ => Panic end
  else if String.eqb f "io.ReadFull" then match args with [WObj _; WSl o] => env_read o m | _ => Panic end
  else if String.eqb f "()" then match args with [WObj k; WPtr p] => env_handler k p m | _ => Panic end
  else if String.eqb f "go" then match args with [WStr g; v; WSl o] => Ret (env_log (EGo g [v; WSl o] (gread (m_heap m) o)) m, []) | _ => Panic end
  else if String.eqb f ".Get" then Ret (m, [WNil])
  else if String.eqb f ".Put" then match args with [_; v] => Ret (env_log (EPut v) m, []) | _ => Panic end
  else Panic.

Lemma hstep_tstep h s h' s' : hstep h s h' s' -> tstep none h s h' s'.
Proof.
  intros (A1 & A2 & A3 & A4). destruct (h_reader s) eqn:Er.
  - destruct (A3 eq_refl) as [-> A]. split; [congruence|]. split; [exact A2|]. split; [apply differs_refl|]. split; [|auto].
    intros b i _ [K _]. congruence.
  - destruct (A4 eq_refl) as [A B]. split; [congruence|]. split; [exact A2|]. split; [|split].
    + eapply differs_weaken; [exact A|]. intros b i _ K. left. split; assumption.
    + intros b i Hb [_ K]. split; [exact Er|]. apply B; assumption.
    + congruence.
Qed.

Theorem the_ext_meets : meets grow N C rw hs the_ext.
Proof.
  constructor; try reflexivity.
  - intros h cs w p q s g Hp Hq Tg Vb Sf. change (the_ext "Rpc_msg.Xdr" _ _) with (env_msg p q (mkMem h cs w)).
    unfold env_msg. cbn [m_cells m_heap m_world]. rewrite Hp, Hq, of_state_inv.
    pose proof (heap_refines grow grow_ok N rpc_env msg_t h s (to_h g) Vb Sf) as X.
    destruct (hxdr grow N rpc_env msg_t h s (to_h g)) as [[[h1 s1] v1]| |] eqn:E; cbn [outrel] in X.
    + destruct X as (-> & X2 & _). cbn [obind agrees]. exists h1, s1, (fill g v1).
      destruct (fill_ok g v1 (hxdr_keeps _ _ _ _ _ _ _ _ _ _ E)) as [K1 K2].
      split; [reflexivity|]. split; [reflexivity|]. split; [rewrite K1; reflexivity|]. split; [exact K2|]. apply hstep_tstep. exact X2.
    + rewrite X. exact I.
    + rewrite X. exact I.
  - intros h cs w p s i E t v Hp Hi Vb Sf. change (the_ext ".Xdr" _ _) with (env_xdr i p (mkMem h cs w)).
    unfold env_xdr. cbn [m_cells m_heap m_world]. rewrite Hp, Hi, of_state_inv.
    pose proof (heap_refines grow grow_ok N E t h s v Vb Sf) as X.
    destruct (hxdr grow N E t h s v) as [[[h1 s1] v1]| |]; cbn [outrel] in X.
    + destruct X as (-> & X2 & _). cbn [obind agrees]. exists h1, s1, v1.
      split; [reflexivity|]. split; [reflexivity|]. split; [reflexivity|]. apply hstep_tstep. exact X2.
    + rewrite X. exact I.
    + rewrite X. exact I.
  - intros h cs w o Vo. exists (zlen (gread h o)). reflexivity.
  - intros h cs w o Vo. change (the_ext "io.ReadFull" _ _) with (env_read o (mkMem h cs w)).
    unfold env_read. cbn [m_cells m_heap m_world]. destruct (read_full N C (w_conn w) (glen o) []) as [[[s1 bs] e]| |] eqn:E; try exact I.
    cbn [obind agrees fst snd]. destruct e as [e|].
    + exists h, (zlen bs). split; [reflexivity|]. split; [apply differs_refl|]. discriminate.
    + destruct (read_full_len _ _ _ _ _ _ _ E) as (b & -> & L). cbn [app] in *.
      exists (hstore h o b), (zlen b). split; [reflexivity|]. split; [apply hstore_differs; [exact Vo|lia]|]. intros _.
      rewrite hstore_read by (try exact Vo; lia). rewrite skipn_all2 by (rewrite gread_len by exact Vo; lia). apply app_nil_r.
  - intros h cs w p s k Hp Vb. change (the_ext "()" _ _) with (env_handler k p (mkMem h cs w)).
    unfold env_handler. cbn [m_cells m_heap m_world]. rewrite Hp, of_state_inv.
    destruct (hs k N (habs h s) (w_user w)) as [[[u y] e]| |]; try exact I. cbn [obind agrees fst snd].
    assert (KE : match e with None => verr e = WNil | Some _ => exists f a, verr e = WErr f a end) by (destruct e; [apply verr_some|reflexivity]).
    destruct y as [y|].
    + destruct (alloc_ok (xv_val y) h) as (A1 & A2 & A3). destruct (alloc (xv_val y) h) as [h1 hv]. cbn [fst snd] in *.
      eexists h1, cs, _, _, _. split; [reflexivity|]. split; [reflexivity|]. split; [reflexivity|]. split; [reflexivity|].
      split; [eapply differs_weaken; [exact A1|]; intros ? ? ? []|]. split; [reflexivity|]. split; [|exact KE].
      exists (List.length (w_objs w)), hv. split; [reflexivity|]. split; [cbn [w_objs]; apply nth_new; reflexivity|]. auto.
    + eexists h, cs, _, _, _. split; [reflexivity|]. split; [reflexivity|]. split; [reflexivity|]. split; [reflexivity|].
      split; [apply differs_refl|]. split; [reflexivity|]. split; [reflexivity|exact KE].
  - intros h cs w f v o Vo. exists h, cs. split; [reflexivity|]. split; [apply differs_refl|auto].
  - intros h cs w. exists h, WNil. split; [reflexivity|]. split; [apply differs_refl|auto].
  - intros m args. exists 0. reflexivity.
Qed.
End Env.

(** ** A call, by running the text *)
Definition ex_in : list byte :=
  [x80; x00; x00; x1c;  x00; x00; x00; x05;  x00; x00; x00; x01;  x00; x00; x00; x00;  x00; x00; x00; x00;  x00; x00; x00; x00;
   x00; x00; x00; x00;  x00; x00; x00; x07].
Definition ex_world : world stream unit := mkWorld (mkStream [firstn 3 ex_in; skipn 3 ex_in] EOF []) [([], CU32, HInt 258); ([], CU32, HInt 0)] tt [].
Definition ex_ext := the_ext (U := unit) exact_grow 50 stream_conn (fun _ _ _ u => Ret (u, None, None)).
Lemma ex_call : exists h' cs' w',
  rpc_run exact_grow ex_ext 3 "Client.Call" [WPtr 0; WNum "uint32" 3; gauth 0 None; gauth 0 None; WObj 0; WObj 1]
    (mkMem [] [gclient 7 (mkClient 4 100000 2)] ex_world) = Ret (mkMem h' cs' w', [WNil]) /\
  nth_error cs' 0 = Some (gclient 7 (mkClient 5 100000 2)) /\ w_objs w' = [([], CU32, HInt 258); ([], CU32, HInt 7)] /\
  si_in (w_conn w') = [] /\ map (@List.length byte) (si_out (w_conn w')) = [48%nat] /\ meets exact_grow 50 stream_conn 7 (fun _ _ _ u => Ret (u, None, None)) ex_ext.
Proof.
  match goal with |- exists _ _ _, ?r = _ /\ _ => let v := eval vm_compute in r in
    match v with Ret (mkMem ?h ?c ?w, _) => exists h, c, w end end.
  split; [vm_compute; reflexivity|]. split; [reflexivity|]. split; [reflexivity|]. split; [reflexivity|]. split; [reflexivity|].
  apply the_ext_meets. intros c n. apply Nat.le_refl.
Qed.
