(** The functions of /repo/xdr/lib.go, as their text says, compute what XdrLib.v says. *)
From Verif Require Import GoLex SrcAst SrcProg.
From Verif Require Import Bytes XdrLib Types Interp Heap HeapP SrcSem.
Open Scope string_scope.
Open Scope Z_scope.
Open Scope list_scope.

(** Package xdr. *)
Definition xdr_pkg : list gd := f_decls lib_prog ++ f_decls helper_prog ++ f_decls xtypes_prog.
Definition xdr_pkgs : list string := ["binary"; "errors"; "fmt"; "math"].
Definition xdr_structs : string -> option gv := struct_zero xdr_pkg.
Definition no_consts : string -> option gv := fun _ => None.

(** ** XdrState values in memory *)
Definition verr (e : option xerr) : gv :=
  match e with
  | None => WNil
  | Some (EMsg s) => WErr (str_bytes s) []
  | Some (ENotEnoughGot w g) => WErr (str_bytes "Not enough bytes: wanted %d, got %d") [WNum "int" w; WNum "int" g]
  | Some (ENotEnoughHave w g) => WErr (str_bytes "Not enough bytes: wanted %d, have %d") [WNum "int" w; WNum "int" g]
  end.
Definition vstate (s : hst) : gv :=
  WStruct "XdrState" [("err", verr (h_err s)); ("reader", WBool (h_reader s)); ("buf", WSl (h_buf s))].

Definition fbody (d : gd) : list gs := match d with DFunc _ _ _ _ _ b _ => b | _ => [] end.
Definition PS (x : string) : string * gx := (x, EUn "*" (EId "XdrState")).

Lemma set_nth_len {A} (l : list A) n a : List.length (set_nth l n a) = List.length l.
Proof. revert n. induction l as [|b l IH]; intros [|n]; cbn; auto. Qed.
Lemma get_set {A} (l : list A) n a : (n < List.length l)%nat -> nth_error (set_nth l n a) n = Some a.
Proof. revert n. induction l as [|b l IH]; intros [|n] H; cbn in *; try lia; auto. apply IH. lia. Qed.
Lemma get_other {A} (l : list A) n k a : n <> k -> nth_error (set_nth l n a) k = nth_error l k.
Proof. revert n k. induction l as [|b l IH]; intros [|n] [|k] H; cbn; auto; try congruence; apply IH; congruence. Qed.
Lemma set_set {A} (l : list A) n a b : set_nth (set_nth l n a) n b = set_nth l n b.
Proof. revert n. induction l as [|c l IH]; intros [|n]; cbn; auto. f_equal. apply IH. Qed.
Lemma set_same {A} (l : list A) n a : nth_error l n = Some a -> set_nth l n a = l.
Proof. revert n. induction l as [|c l IH]; intros [|n]; cbn; auto; try congruence; intros H; f_equal; apply IH; exact H. Qed.
Lemma set_comm {A} (l : list A) n k a b : n <> k -> set_nth (set_nth l n a) k b = set_nth (set_nth l k b) n a.
Proof. revert n k. induction l as [|c l IH]; intros [|n] [|k] H; cbn; auto; try congruence; f_equal; apply IH; congruence. Qed.

Ltac go1 := cbn [obind exec eval evals assigns assign declare many hd default leave zero_var like set_path assoc assoc_set lpath
  local field cell m_cells m_heap m_world with_heap with_cells set_cell new_cell new_block store universe no_consts
  invoke builtin GoLex.mem existsb num_types xdr_pkgs pkg_path pkg_const method one key put get byte_type Nat.leb glen gcap
  binop operands arith same is_nil number wrap unop coerce coerces bind_params option_map
  String.eqb Ascii.eqb Bool.eqb String.append andb orb negb
  List.length Nat.sub skipn app vstate h_err h_reader h_buf sl_blk sl_off sl_len sl_cap fst snd
  hset_err hset_buf].
Lemma sub_all b n : subslice (Some (mkSl b 0 n n)) None None None = Ret (Some (mkSl b 0 n n)).
Proof.
  unfold subslice. cbn [glen gcap sl_len sl_cap sl_blk sl_off]. rewrite !Z.leb_refl, (proj2 (Z.leb_le 0 (Z.of_nat n))) by lia.
  cbn [andb]. do 3 f_equal; lia.
Qed.
Lemma ne_nil e : binop "!=" (verr e) WNil = Ret (WBool (match e with None => false | Some _ => true end)).
Proof. destruct e as [[]|]; reflexivity. Qed.
Lemma eq_nil e : binop "==" (verr e) WNil = Ret (WBool (match e with None => true | Some _ => false end)).
Proof. destruct e as [[]|]; reflexivity. Qed.
(** Known contents of cells. *)
Ltac cells := repeat match goal with
  | H : nth_error ?c ?p = Some _ |- context [nth_error ?c ?p] => rewrite H
  | H : (?p < List.length ?c)%nat |- context [nth_error (set_nth ?c ?p ?v) ?p] => rewrite (get_set c p v H)
  | H : ?p <> ?q |- context [nth_error (set_nth ?c ?p ?v) ?q] => rewrite (get_other c p q v H)
  end.
(** The rest of a function body after one of its statements. *)
Definition after {W} grow pkgs consts structs (call : string -> list gv -> mem W -> outcome (mem W * list gv)) n (b : list gs)
    (r : mem W * genv * ctl) : outcome (mem W * genv * ctl) :=
  let '(m, en, c) := r in
  match c with
  | CNext => exec_body grow pkgs consts structs call n None b m en
  | CGoto l => exec_body grow pkgs consts structs call n (Some l) b m en
  | CRet vs => Ret (m, en, c)
  end.
Lemma body_cons {W} grow pkgs consts structs (call : string -> list gv -> mem W -> outcome (mem W * list gv)) n s b m en :
  deferred s = None ->
  exec_body grow pkgs consts structs call n None (s :: b) m en =
  obind (exec grow pkgs consts structs call n s m en) (after grow pkgs consts structs call n b).
Proof. intros H. cbn [exec_body]. rewrite H. reflexivity. Qed.
Lemma body_nil {W} grow pkgs consts structs (call : string -> list gv -> mem W -> outcome (mem W * list gv)) n (m : mem W) en :
  exec_body grow pkgs consts structs call n None [] m en = Ret (m, en, CNext).
Proof. reflexivity. Qed.
Lemma after_next {W} grow pkgs consts structs (call : string -> list gv -> mem W -> outcome (mem W * list gv)) n b (m : mem W) en :
  after grow pkgs consts structs call n b (m, en, CNext) = exec_body grow pkgs consts structs call n None b m en.
Proof. reflexivity. Qed.
Lemma after_ret {W} grow pkgs consts structs (call : string -> list gv -> mem W -> outcome (mem W * list gv)) n b (m : mem W) en vs :
  after grow pkgs consts structs call n b (m, en, CRet vs) = Ret (m, en, CRet vs).
Proof. reflexivity. Qed.
Lemma finish_next {W} (m : mem W) en : finish [] (m, en, CNext) = Ret (m, []).
Proof. reflexivity. Qed.

Ltac lits := repeat match goal with
  | |- context [int_lit ?s] => let z := eval vm_compute in (int_lit s) in change (int_lit s) with z
  | |- context G [4 =? 0] => let g := context G [false] in change g
  | |- context G [Z.to_nat 4] => let g := context G [4%nat] in change g
  | |- context G [Z.to_nat 8] => let g := context G [8%nat] in change g
  | |- context G [List.length (zeros 4)] => let g := context G [4%nat] in change g
  | |- context G [List.length (zeros 8)] => let g := context G [8%nat] in change g
  end.
Ltac go := repeat (progress (go1; unfold cell, store, set_cell, with_heap, with_cells; go1; lits; rewrite ?ne_nil, ?eq_nil, ?sub_all; cells)).
Ltac nx := rewrite ?after_next, ?after_ret; rewrite ?body_nil; try rewrite body_cons by reflexivity; go.

(** ** Slicing *)
Lemma sub_from h o k : gvalid h o -> (k <= glen o)%nat -> subslice o (Some (Z.of_nat k)) None None = Ret (gfrom o k).
Proof.
  intros Hv Hk. unfold subslice.
  assert (glen o <= gcap o)%nat by (destruct o as [s|]; cbn in *; [apply Hv|lia]).
  rewrite (proj2 (Z.leb_le 0 (Z.of_nat k))), (proj2 (Z.leb_le (Z.of_nat k) _)), (proj2 (Z.leb_le (Z.of_nat (glen o)) _)), Z.leb_refl by lia.
  cbn [andb]. destruct o as [s|]; [|reflexivity]. cbn [gfrom glen gcap] in *. do 3 f_equal; lia.
Qed.
Lemma sub_clip h o k : gvalid h o -> (k <= glen o)%nat -> subslice o None (Some (Z.of_nat k)) (Some (Z.of_nat k)) = Ret (gclip o k).
Proof.
  intros Hv Hk. unfold subslice.
  assert (glen o <= gcap o)%nat by (destruct o as [s|]; cbn in *; [apply Hv|lia]).
  rewrite (proj2 (Z.leb_le 0 (Z.of_nat k))), !Z.leb_refl, (proj2 (Z.leb_le (Z.of_nat k) (Z.of_nat (gcap o)))) by lia.
  cbn [andb]. destruct o as [s|]; [|reflexivity]. cbn [gclip glen gcap] in *. do 3 f_equal; lia.
Qed.
(** ** Steps: what a call may change in memory *)
(** The addresses of a slice's bytes. *)
Definition inside (o : option slice) (b i : nat) : Prop :=
  match o with Some s => b = sl_blk s /\ (sl_off s <= i < sl_off s + sl_len s)%nat | None => False end.
(** What a writer may fill: the spare capacity of its buffer. *)
Definition owned (s : hst) (b i : nat) : Prop := h_reader s = false /\ in_spare (h_buf s) b i.
Definition into (s : hst) (o : option slice) (b i : nat) : Prop := h_reader s = true /\ inside o b i.

(** From memory [h] and state [s] to [h'] and [s']: besides new blocks, only addresses owned by a
    writer and those in [X] may have changed; a reader's buffer is a rest of the old one. *)
Definition tstep (X : nat -> nat -> Prop) (h : heap) (s : hst) (h' : heap) (s' : hst) : Prop :=
  h_reader s' = h_reader s /\ gvalid h' (h_buf s') /\
  differs_at (fun b i => owned s b i \/ X b i) h h' /\
  (forall b i, (b < List.length h)%nat -> owned s' b i -> owned s b i) /\
  (h_reader s = true -> gsuffix (h_buf s) (h_buf s')).

Lemma tstep_refl X h s : gvalid h (h_buf s) -> tstep X h s h s.
Proof. intros H. split; [reflexivity|]. split; [exact H|]. split; [apply differs_refl|]. split; [auto|]. intros _. apply gsuffix_refl. Qed.
Lemma tstep_err X h s h' s' e : tstep X h s h' s' -> tstep X h s h' (hset_err s' e).
Proof. intros H. exact H. Qed.
Lemma differs_weaken (P Q : nat -> nat -> Prop) h h' : differs_at P h h' -> (forall b i, (b < List.length h)%nat -> P b i -> Q b i) -> differs_at Q h h'.
Proof. intros [L D] H. split; [exact L|]. intros b Hb. destruct (D b Hb) as [E N]. split; [exact E|]. intros i Hi. apply N. intros Hp. apply Hi, H; auto. Qed.
Lemma differs_trans P h h1 h2 : differs_at P h h1 -> differs_at P h1 h2 -> differs_at P h h2.
Proof.
  intros [L D] [L1 D1]. split; [lia|]. intros b Hb. destruct (D b Hb) as [E N]. destruct (D1 b ltac:(lia)) as [E1 N1].
  split; [congruence|]. intros i Hi. rewrite N1, N; auto.
Qed.
Lemma tstep_weaken (X Y : nat -> nat -> Prop) h s h' s' : tstep X h s h' s' -> (forall b i, (b < List.length h)%nat -> X b i -> Y b i) -> tstep Y h s h' s'.
Proof. intros (A & B & C & D & E) H. repeat (split; [assumption|]). split; [|auto]. eapply differs_weaken; [exact C|]. intros b i Hb [?|?]; auto. Qed.
Lemma tstep_trans (X Y : nat -> nat -> Prop) h s h1 s1 h2 s2 : tstep X h s h1 s1 -> tstep Y h1 s1 h2 s2 ->
  (forall b i, (b < List.length h)%nat -> Y b i -> X b i) -> tstep X h s h2 s2.
Proof.
  intros (A & B & C & D & E) (A' & B' & C' & D' & E') HY. split; [congruence|]. split; [exact B'|]. split; [|split].
  - destruct C as [L D1]. destruct C' as [L' D2]. split; [lia|]. intros b Hb.
    destruct (D1 b Hb) as [E1 N1]. destruct (D2 b ltac:(lia)) as [E2 N2]. split; [congruence|].
    intros i Hi. rewrite N2, N1; auto. intros [Ho|Hx]; apply Hi; auto.
  - intros b i Hb Ho. destruct C as [L _]. apply D; [exact Hb|]. apply D'; [lia|exact Ho].
  - intros Hr. eapply gsuffix_trans; [apply E; exact Hr|]. apply E'. congruence.
Qed.
(** A new block changes nothing. *)
Lemma tstep_new X h s l : gvalid h (h_buf s) -> tstep X h s (h ++ [l]) s.
Proof.
  intros H. split; [reflexivity|]. split.
  { destruct (h_buf s) as [sl|]; cbn in *; [|auto]. destruct H as (H1 & H2 & H3). unfold svalid. rewrite app_length, block_app1 by exact H1. cbn. lia. }
  split; [|split; [auto|intros _; apply gsuffix_refl]].
  split; [rewrite app_length; lia|]. intros b Hb. rewrite block_app1 by exact Hb. auto.
Qed.

(** A slice none of whose bytes may change reads the same. *)
Lemma gread_differs P h h' o : differs_at P h h' -> gvalid h o -> (forall b i, inside o b i -> ~ P b i) -> gread h' o = gread h o.
Proof. destruct o as [s|]; [|reflexivity]. intros D Hv Hp. cbn. eapply sread_differs; [exact D|exact Hv|]. intros i Hi. apply Hp. cbn. auto. Qed.
Lemma gvalid_differs P h h' o : differs_at P h h' -> gvalid h o -> gvalid h' o.
Proof. destruct o as [s|]; [|auto]. apply svalid_differs. Qed.

(** ** Storing *)
Lemma hstore_differs h o bs : gvalid h o -> (List.length bs <= glen o)%nat -> differs_at (inside o) h (hstore h o bs).
Proof.
  destruct o as [s|]; [|intros; apply differs_refl]. cbn [glen hstore]. intros (Hb & H2 & H3) Hl.
  split; [rewrite hset_len by exact Hb; lia|]. intros b Hbl. rewrite block_hset by exact Hb.
  destruct (Nat.eqb_spec b (sl_blk s)) as [->|Hne]; [|auto]. split; [apply poke_len; lia|].
  intros i Hi. rewrite poke_nth by lia. destruct (Nat.ltb_spec i (sl_off s)); [reflexivity|].
  destruct (Nat.ltb_spec i (sl_off s + List.length bs)); [|reflexivity]. exfalso. apply Hi. cbn. lia.
Qed.
Lemma hstore_read h o bs : gvalid h o -> (List.length bs <= glen o)%nat ->
  gread (hstore h o bs) o = bs ++ skipn (List.length bs) (gread h o).
Proof.
  destruct o as [s|]; cbn [glen hstore gread]; [|intros _ H; destruct bs; [reflexivity|cbn in H; lia]].
  intros Hv Hl. pose proof (sread_len h s Hv) as Hlen. destruct Hv as (Hb & H2 & H3). unfold sread in *.
  rewrite block_hset, Nat.eqb_refl by exact Hb. apply nth_ext. intros i. rewrite nth_firstn, nth_skipn.
  destruct (Nat.ltb_spec i (sl_len s)) as [Hi|Hi].
  - rewrite poke_nth by lia. destruct (Nat.ltb_spec (sl_off s + i) (sl_off s)); [lia|].
    destruct (Nat.ltb_spec (sl_off s + i) (sl_off s + List.length bs)).
    + rewrite nth_error_app1 by lia. f_equal. lia.
    + rewrite nth_error_app2 by lia. rewrite nth_skipn, nth_firstn, nth_skipn.
      destruct (Nat.ltb_spec (List.length bs + (i - List.length bs)) (sl_len s)); [|lia]. f_equal. lia.
  - symmetry. apply nth_error_None. rewrite app_length, skipn_length, Hlen. lia.
Qed.

Lemma run_call {W} grow pkgs consts structs P (ext : string -> list gv -> mem W -> outcome (mem W * list gv)) n f args m ps rs body en :
  find_fun P f = Some (ps, rs, body) -> bind_params ps args = Some en ->
  run grow pkgs consts structs P ext (S n) f args m =
  obind (exec_body grow pkgs consts structs (run grow pkgs consts structs P ext n) n None body m en) (finish rs).
Proof. intros H1 H2. cbn [run]. rewrite H1, H2. reflexivity. Qed.
Ltac enter F := erewrite run_call; [|exact F|reflexivity].
Section Lib.
Context {W : Type}.
Variable grow : nat -> nat -> nat.
Hypothesis grow_ok : forall c n, (n <= grow c n)%nat.
Variable ext : string -> list gv -> mem W -> outcome (mem W * list gv).
Notation Run := (run grow xdr_pkgs no_consts xdr_structs xdr_pkg ext).

Lemma f_RW : find_fun xdr_pkg "xdrRW" = Some ([PS "xs"; ("v", TSlice (EId "byte"))], [], fbody lib_xdrRW).
Proof. reflexivity. Qed.

(** What a byte slice passed to xdrRW must keep clear of: a writer's spare capacity, a reader's buffer. *)
Definition clear (s : hst) (o : option slice) : Prop :=
  forall b i, inside o b i -> ~ owned s b i /\ (h_reader s = true -> ~ inside (h_buf s) b i).

Lemma RW_text n (m : mem W) p s o :
  nth_error (m_cells m) p = Some (vstate s) -> gvalid (m_heap m) (h_buf s) -> gvalid (m_heap m) o -> clear s o ->
  exists h' s', Run (S n) "xdrRW" [WPtr p; WSl o] m = Ret (set_cell (with_heap m h') p (vstate s'), []) /\
    xdrRW (habs (m_heap m) s) (gread (m_heap m) o) = (habs h' s', gread h' o) /\
    tstep (into s o) (m_heap m) s h' s'.
Proof.
  intros Hc Hb Ho Hk. assert (Hp : (p < List.length (m_cells m))%nat) by (apply nth_error_Some; congruence).
  destruct m as [h cs w]. cbn [m_cells m_heap] in *. enter f_RW. unfold fbody, lib_xdrRW, PS. nx.
  unfold xdrRW. cbn [habs x_err x_reader x_buf].
  destruct s as [[e|] rd bf]; cbn [h_err h_reader h_buf] in *; nx.
  { exists h, (mkHst (Some e) rd bf). split; [nx; cbn [finish]; go; unfold set_cell, with_heap, with_cells; go; rewrite set_same by exact Hc; reflexivity|]. split; [reflexivity|apply tstep_refl; exact Hb]. }
  assert (HL : List.length (gread h o) = glen o) by (apply gread_len; exact Ho).
  assert (HB : List.length (gread h bf) = glen bf) by (apply gread_len; exact Hb).
  destruct rd.
  - set (k := Nat.min (glen o) (glen bf)).
    assert (Hn : List.length (firstn k (gread h bf)) = k) by (rewrite firstn_length, HB; lia).
    rewrite HL, HB. fold k.
    set (h1 := hstore h o (firstn k (gread h bf))).
    assert (D : differs_at (inside o) h h1) by (apply hstore_differs; [exact Ho|rewrite Hn; lia]).
    assert (R1 : gread h1 o = firstn k (gread h bf) ++ skipn k (gread h o)) by (unfold h1; rewrite hstore_read, Hn by (try exact Ho; rewrite ?Hn; lia); reflexivity).
    assert (R2 : gread h1 bf = gread h bf).
    { eapply gread_differs; [exact D|exact Hb|]. intros b i Hi Hj. destruct (Hk b i Hj) as [_ Hx]. apply Hx; auto. }
    assert (V2 : gvalid h1 bf) by (eapply gvalid_differs; eassumption).
    nx. fold k. fold h1. rewrite (sub_from h1 bf) by (try exact V2; lia). go.
    rewrite (proj2 (Z.ltb_lt 0 0)) || idtac.
    destruct (Nat.ltb_spec k (glen o)) as [Hlt|Hge].
    + rewrite (proj2 (Z.ltb_lt (Z.of_nat k) (Z.of_nat (glen o)))) by lia. go.
      exists h1, (mkHst (Some (ENotEnoughGot (Z.of_nat (glen o)) (Z.of_nat k))) true (gfrom bf k)).
      split; [|split].
      * nx. cbn [finish]. go. unfold set_cell, with_heap, with_cells. go. rewrite set_set. reflexivity.
      * unfold habs, set_err, set_buf. cbn [h_err h_reader h_buf x_err x_reader x_buf]. rewrite R1, gfrom_read, R2 by (try exact V2; lia).
        unfold zlen. rewrite HL. reflexivity.
      * split; [reflexivity|]. split; [apply gfrom_valid; [exact V2|lia]|]. split; [|split].
        -- eapply differs_weaken; [exact D|]. intros b i _ Hi. right. split; auto.
        -- intros b i _ [Hc' _]. discriminate Hc'.
        -- intros _. unfold gsuffix, gfrom. cbn [h_buf]. destruct bf as [sl|]; [|exact I]. cbn [sl_blk sl_off sl_len sl_cap glen] in *.
           destruct Hb as (? & ? & ?). lia.
    + rewrite (proj2 (Z.ltb_ge (Z.of_nat k) (Z.of_nat (glen o)))) by lia. go.
      exists h1, (mkHst None true (gfrom bf k)).
      split; [|split].
      * nx. cbn [finish]. go. reflexivity.
      * unfold habs, set_buf. cbn [h_err h_reader h_buf x_err x_reader x_buf]. rewrite R1, gfrom_read, R2 by (try exact V2; lia). reflexivity.
      * split; [reflexivity|]. split; [apply gfrom_valid; [exact V2|lia]|]. split; [|split].
        -- eapply differs_weaken; [exact D|]. intros b i _ Hi. right. split; auto.
        -- intros b i _ [Hc' _]. discriminate Hc'.
        -- intros _. unfold gsuffix, gfrom. cbn [h_buf]. destruct bf as [sl|]; [|exact I]. cbn [sl_blk sl_off sl_len sl_cap glen] in *.
           destruct Hb as (? & ? & ?). lia.
  - nx. pose proof (gappend_spec grow grow_ok h bf (gread h o) Hb) as G. destruct (gappend grow h bf (gread h o)) as [h1 o1]. go.
    destruct G as (G1 & G2 & G3 & G4).
    exists h1, (mkHst None false o1). split; [|split].
    + nx. cbn [finish]. go. reflexivity.
    + unfold habs, set_buf. cbn [h_err h_reader h_buf x_err x_reader x_buf]. rewrite G1. f_equal.
      symmetry. eapply gread_differs; [exact G3|exact Ho|]. intros b i Hi Hj. destruct (Hk b i Hi) as [Hx _]. apply Hx. split; auto.
    + split; [reflexivity|]. split; [exact G2|]. split; [|split].
      * eapply differs_weaken; [exact G3|]. intros b i _ Hi. left. split; auto.
      * intros b i Hbl [_ Hi]. split; [reflexivity|]. apply G4; assumption.
      * discriminate.
Qed.

Definition none (b i : nat) : Prop := False.
Lemma gvalid_app h l o : gvalid h o -> gvalid (h ++ l) o.
Proof. destruct o as [s|]; [|auto]. intros (H1 & H2 & H3). cbn. unfold svalid. rewrite app_length, block_app1 by exact H1. lia. Qed.
Lemma gread_app h l o : gvalid h o -> gread (h ++ l) o = gread h o.
Proof. destruct o as [s|]; [|reflexivity]. intros (H1 & H2 & H3). cbn. unfold sread. rewrite block_app1 by exact H1. reflexivity. Qed.
Lemma habs_app h l s : gvalid h (h_buf s) -> habs (h ++ l) s = habs h s.
Proof. intros H. unfold habs. rewrite gread_app by exact H. reflexivity. Qed.
(** A local array: a fresh block. *)
Definition arr (h : heap) (k : nat) : option slice := Some (mkSl (List.length h) 0 k k).
Lemma arr_valid h bs k : List.length bs = k -> gvalid (h ++ [bs]) (arr h k).
Proof. intros <-. cbn. unfold svalid. cbn [sl_blk sl_off sl_len sl_cap]. rewrite block_new, app_length. cbn. lia. Qed.
Lemma arr_read h bs k : List.length bs = k -> gread (h ++ [bs]) (arr h k) = bs.
Proof. intros <-. cbn. unfold sread. cbn [sl_blk sl_off sl_len sl_cap]. rewrite block_new. cbn [skipn]. apply firstn_all. Qed.
Lemma arr_clear h s k : gvalid h (h_buf s) -> clear s (arr h k).
Proof.
  intros H b i [-> _]. cbn [sl_blk]. split.
  - intros [_ Hs]. destruct (h_buf s) as [sl|]; cbn in *; [|exact Hs]. destruct H, Hs. lia.
  - intros _ Hs. destruct (h_buf s) as [sl|]; cbn in *; [|exact Hs]. destruct H, Hs. lia.
Qed.
Lemma arr_store h old bs k : List.length old = k -> List.length bs = k -> hstore (h ++ [old]) (arr h k) bs = h ++ [bs].
Proof.
  intros Hl Hk. cbn [arr hstore sl_blk sl_off]. rewrite block_new. unfold poke. cbn [firstn Nat.add app].
  rewrite Hk, <- Hl, skipn_all, app_nil_r. unfold hset. rewrite firstn_app, Nat.sub_diag, firstn_all, skipn_all2 by (rewrite app_length; cbn; lia).
  cbn [firstn]. rewrite app_nil_r. reflexivity.
Qed.

(** xdrRW on a local array. *)
Lemma RW_arr n h cs w p s bs k :
  nth_error cs p = Some (vstate s) -> gvalid h (h_buf s) -> List.length bs = k ->
  exists h' s', Run (S n) "xdrRW" [WPtr p; WSl (arr h k)] (mkMem (h ++ [bs]) cs w) = Ret (mkMem h' (set_nth cs p (vstate s')) w, []) /\
    xdrRW (habs h s) bs = (habs h' s', gread h' (arr h k)) /\
    List.length (gread h' (arr h k)) = k /\ tstep none h s h' s'.
Proof.
  intros Hc Hb Hk.
  destruct (RW_text n (mkMem (h ++ [bs]) cs w) p s (arr h k) Hc (gvalid_app _ _ _ Hb) (arr_valid h bs k Hk) (arr_clear h s _ Hb))
    as (h' & s' & H1 & H2 & H3).
  cbn [m_heap] in *. rewrite arr_read, habs_app in H2 by assumption.
  exists h', s'. split; [exact H1|]. split; [exact H2|]. split.
  - rewrite gread_len; [reflexivity|]. destruct H3 as (_ & _ & D & _). eapply gvalid_differs; [exact D|]. apply arr_valid. exact Hk.
  - eapply tstep_trans; [apply (tstep_new none h s bs Hb)|exact H3|]. intros b i Hlt [_ [Hi _]]. cbn in Hi. lia.
Qed.

(** ** Methods of XdrState *)
Lemma f_Enc : find_fun xdr_pkg "XdrState.Encoding" = Some ([PS "xs"], [EId "bool"], fbody lib_XdrState_Encoding).
Proof. reflexivity. Qed.
Lemma f_Dec : find_fun xdr_pkg "XdrState.Decoding" = Some ([PS "xs"], [EId "bool"], fbody lib_XdrState_Decoding).
Proof. reflexivity. Qed.
Lemma f_SetError : find_fun xdr_pkg "XdrState.SetError" = Some ([PS "xs"; ("s", EId "string")], [], fbody lib_XdrState_SetError).
Proof. reflexivity. Qed.

Lemma Enc_text n h cs w p s : nth_error cs p = Some (vstate s) ->
  Run (S n) "XdrState.Encoding" [WPtr p] (mkMem h cs w) = Ret (mkMem h cs w, [WBool (HEncoding s)]).
Proof.
  intros Hc. enter f_Enc. unfold fbody, lib_XdrState_Encoding, PS. nx.
  destruct s as [[e|] [|] bf]; nx; reflexivity.
Qed.
Lemma Dec_text n h cs w p s : nth_error cs p = Some (vstate s) ->
  Run (S n) "XdrState.Decoding" [WPtr p] (mkMem h cs w) = Ret (mkMem h cs w, [WBool (HDecoding s)]).
Proof.
  intros Hc. enter f_Dec. unfold fbody, lib_XdrState_Decoding, PS. nx.
  destruct s as [[e|] [|] bf]; nx; reflexivity.
Qed.
Lemma SetError_text n h cs w p s msg : nth_error cs p = Some (vstate s) ->
  Run (S n) "XdrState.SetError" [WPtr p; WStr (str_bytes msg)] (mkMem h cs w) = Ret (mkMem h (set_nth cs p (vstate (HSetError s msg))) w, []).
Proof.
  intros Hc. enter f_SetError. unfold fbody, lib_XdrState_SetError, PS. nx.
  nx. cbn [finish]. reflexivity.
Qed.

(** ** Integers and booleans *)
Lemma firstn_len {A} k (l : list A) : List.length l = k -> firstn k l = l.
Proof. intros <-. apply firstn_all. Qed.

(** The statement for the functions on numbers and booleans: function [f] with a pointer to a value
    represented by [rep] computes [F]. *)
Definition num_text {A} (f : string) (rep : A -> gv) (F : xst -> A -> xst * A) : Prop :=
  forall n h cs w p q s v,
  nth_error cs p = Some (vstate s) -> nth_error cs q = Some (rep v) -> gvalid h (h_buf s) ->
  exists h' s' v', Run (S (S n)) f [WPtr p; WPtr q] (mkMem h cs w) =
      Ret (mkMem h' (set_nth (set_nth cs p (vstate s')) q (rep v')) w, []) /\
    F (habs h s) v = (habs h' s', v') /\ tstep none h s h' s'.

Lemma f_U32 : find_fun xdr_pkg "XdrU32" = Some ([PS "xs"; ("v", EUn "*" (EId "uint32"))], [], fbody lib_XdrU32).
Proof. reflexivity. Qed.
Lemma f_S32 : find_fun xdr_pkg "XdrS32" = Some ([PS "xs"; ("v", EUn "*" (EId "int32"))], [], fbody lib_XdrS32).
Proof. reflexivity. Qed.
Lemma f_U64 : find_fun xdr_pkg "XdrU64" = Some ([PS "xs"; ("v", EUn "*" (EId "uint64"))], [], fbody lib_XdrU64).
Proof. reflexivity. Qed.
Lemma f_S64 : find_fun xdr_pkg "XdrS64" = Some ([PS "xs"; ("v", EUn "*" (EId "int64"))], [], fbody lib_XdrS64).
Proof. reflexivity. Qed.
Lemma f_Bool : find_fun xdr_pkg "XdrBool" = Some ([PS "xs"; ("v", EUn "*" (EId "bool"))], [], fbody lib_XdrBool).
Proof. reflexivity. Qed.

Ltac num_start F D k :=
  intros n h cs w p q s v Hc Hq Hb;
  assert (Hpq : p <> q) by (intros ->; rewrite Hc in Hq; discriminate);
  assert (Hp : (p < List.length cs)%nat) by (apply nth_error_Some; congruence);
  enter F; unfold fbody, D, PS; nx;
  destruct s as [[e|] rd bf]; cbn [h_err h_reader h_buf habs x_err] in *; nx;
  [exists h, (mkHst (Some e) rd bf), v; split; [|split; [reflexivity|apply tstep_refl; exact Hb]];
    cbn [finish]; go; rewrite (set_same cs) by exact Hc; rewrite (set_same cs) by exact Hq; reflexivity|];
  nx; nx; rewrite (Enc_text n _ _ _ p (mkHst None rd bf) Hc); go; unfold HEncoding; go;
  unfold Encoding; cbn [habs x_err x_reader h_err h_reader].

Lemma dec_habs h s : Decoding (habs h s) = HDecoding s.
Proof. reflexivity. Qed.
Ltac num_rw n h p q v Hq k h2 s2 H1 H2 H3 H4 :=
  change (Some (mkSl (List.length h) 0 k k)) with (arr h k); rewrite ?arr_store by reflexivity;
  rewrite H1, H2; go; nx;
  rewrite (Dec_text n _ _ _ p s2) by (apply get_set; assumption); go; rewrite dec_habs;
  destruct (HDecoding s2); go; [change (Some (mkSl (List.length h) 0 k k)) with (arr h k)|];
  [rewrite firstn_len by exact H3; go; eexists h2, s2, _; split; [nx; cbn [finish]; reflexivity|split; [reflexivity|exact H4]]
  |eexists h2, s2, v; split; [nx; cbn [finish]; rewrite (set_same (set_nth _ _ _) q) by (rewrite get_other by assumption; exact Hq); reflexivity|split; [reflexivity|exact H4]]].
Lemma U32_text : num_text "XdrU32" (WNum "uint32") XdrU32.
Proof.
  unfold XdrU32. num_start f_U32 lib_XdrU32 4%nat.
  destruct rd; go; cbn [negb]; nx.
  - destruct (RW_arr n h cs w p _ (zeros 4) 4 Hc Hb eq_refl) as (h2 & s2 & H1 & H2 & H3 & H4).
    num_rw n h p q v Hq 4%nat h2 s2 H1 H2 H3 H4.
  - destruct (RW_arr n h cs w p _ (put_u32 v) 4 Hc Hb eq_refl) as (h2 & s2 & H1 & H2 & H3 & H4).
    num_rw n h p q v Hq 4%nat h2 s2 H1 H2 H3 H4.
Qed.
Lemma U64_text : num_text "XdrU64" (WNum "uint64") XdrU64.
Proof.
  unfold XdrU64. num_start f_U64 lib_XdrU64 8%nat.
  destruct rd; go; cbn [negb]; nx.
  - destruct (RW_arr n h cs w p _ (zeros 8) 8 Hc Hb eq_refl) as (h2 & s2 & H1 & H2 & H3 & H4).
    num_rw n h p q v Hq 8%nat h2 s2 H1 H2 H3 H4.
  - destruct (RW_arr n h cs w p _ (put_u64 v) 8 Hc Hb eq_refl) as (h2 & s2 & H1 & H2 & H3 & H4).
    num_rw n h p q v Hq 8%nat h2 s2 H1 H2 H3 H4.
Qed.
Lemma S32_text : num_text "XdrS32" (WNum "int32") XdrS32.
Proof.
  unfold XdrS32. num_start f_S32 lib_XdrS32 4%nat.
  destruct rd; go; cbn [negb]; nx.
  - destruct (RW_arr n h cs w p _ (zeros 4) 4 Hc Hb eq_refl) as (h2 & s2 & H1 & H2 & H3 & H4).
    num_rw n h p q v Hq 4%nat h2 s2 H1 H2 H3 H4.
  - destruct (RW_arr n h cs w p _ (put_u32 (to_u32 v)) 4 Hc Hb eq_refl) as (h2 & s2 & H1 & H2 & H3 & H4).
    num_rw n h p q v Hq 4%nat h2 s2 H1 H2 H3 H4.
Qed.
Lemma S64_text : num_text "XdrS64" (WNum "int64") XdrS64.
Proof.
  unfold XdrS64. num_start f_S64 lib_XdrS64 8%nat.
  destruct rd; go; cbn [negb]; nx.
  - destruct (RW_arr n h cs w p _ (zeros 8) 8 Hc Hb eq_refl) as (h2 & s2 & H1 & H2 & H3 & H4).
    num_rw n h p q v Hq 8%nat h2 s2 H1 H2 H3 H4.
  - destruct (RW_arr n h cs w p _ (put_u64 (to_u64 v)) 8 Hc Hb eq_refl) as (h2 & s2 & H1 & H2 & H3 & H4).
    num_rw n h p q v Hq 8%nat h2 s2 H1 H2 H3 H4.
Qed.
Ltac num_bool n h p q v Hq h2 s2 H1 H2 H3 H4 :=
  change (Some (mkSl (List.length h) 0 4 4)) with (arr h 4); rewrite ?arr_store by reflexivity;
  rewrite H1, H2; go; nx;
  rewrite (Dec_text n _ _ _ p s2) by (apply get_set; assumption); go; rewrite dec_habs;
  destruct (HDecoding s2); go; [change (Some (mkSl (List.length h) 0 4 4)) with (arr h 4)|];
  [rewrite firstn_len by exact H3; destruct (get_u32 (gread h2 (arr h 4)) =? 0) eqn:E0; go;
     (eexists h2, s2, _; split; [nx; cbn [finish]; go; reflexivity|split; [rewrite ?E0; reflexivity|exact H4]])
  |eexists h2, s2, v; split; [nx; cbn [finish]; rewrite (set_same (set_nth _ _ _) q) by (rewrite get_other by assumption; exact Hq); reflexivity|split; [reflexivity|exact H4]]].
Lemma Bool_text : num_text "XdrBool" WBool XdrBool.
Proof.
  unfold XdrBool. num_start f_Bool lib_XdrBool 4%nat.
  destruct rd; go; cbn [negb].
  - nx. destruct (RW_arr n h cs w p _ (zeros 4) 4 Hc Hb eq_refl) as (h2 & s2 & H1 & H2 & H3 & H4).
    num_bool n h p q v Hq h2 s2 H1 H2 H3 H4.
  - destruct v; go; nx.
    + destruct (RW_arr n h cs w p _ (put_u32 1) 4 Hc Hb eq_refl) as (h2 & s2 & H1 & H2 & H3 & H4).
      num_bool n h p q true Hq h2 s2 H1 H2 H3 H4.
    + destruct (RW_arr n h cs w p _ (put_u32 0) 4 Hc Hb eq_refl) as (h2 & s2 & H1 & H2 & H3 & H4).
      num_bool n h p q false Hq h2 s2 H1 H2 H3 H4.
Qed.

(** ** Byte arrays and strings *)
Lemma to_s64_small z : - 2 ^ 63 <= z < 2 ^ 63 -> to_s64 z = z.
Proof. intros H. unfold to_s64. rewrite Z.mod_small by lia. lia. Qed.
Lemma rem4 z : 0 <= z -> 0 <= Z.rem z 4 < 4.
Proof. intros H. apply Z.rem_bound_pos; lia. Qed.
Lemma pad_len L : (L >= 0)%nat -> let z := Z.of_nat L in
  to_s64 (Z.rem (to_s64 (4 - to_s64 (Z.rem z 4))) 4) = Z.rem (4 - Z.rem z 4) 4 /\ 0 <= Z.rem (4 - Z.rem z 4) 4.
Proof.
  intros _ z. pose proof (rem4 z ltac:(lia)). pose proof (rem4 (4 - Z.rem z 4) ltac:(lia)).
  rewrite (to_s64_small (Z.rem z 4)), (to_s64_small (4 - Z.rem z 4)), to_s64_small by lia. lia.
Qed.

Lemma f_R : find_fun xdr_pkg "xdrR" = Some ([PS "xs"; ("n", EId "int")], [TSlice (EId "byte")], fbody lib_xdrR).
Proof. reflexivity. Qed.
Lemma R_text n h cs w p s z :
  nth_error cs p = Some (vstate s) -> gvalid h (h_buf s) -> 0 <= z ->
  Run (S n) "xdrR" [WPtr p; WNum "int" z] (mkMem h cs w) =
  Ret (mkMem h (set_nth cs p (vstate (fst (hxdrR s z)))) w, [WSl (snd (hxdrR s z))]).
Proof.
  intros Hc Hb Hz. assert (Hp : (p < List.length cs)%nat) by (apply nth_error_Some; congruence).
  unfold hxdrR. enter f_R. unfold fbody, lib_xdrR, PS. nx.
  destruct (Z.ltb_spec (Z.of_nat (glen (h_buf s))) z) as [Hlt|Hge]; nx.
  - nx. cbn [finish]. go. reflexivity.
  - destruct s as [[e|] rd bf]; cbn [h_err h_reader h_buf] in *; nx.
    { cbn [finish]. go. rewrite set_same by exact Hc. reflexivity. }
    replace z with (Z.of_nat (Z.to_nat z)) by lia. nx.
    rewrite (sub_clip h bf) by (try exact Hb; lia). go. nx. rewrite (sub_from h bf) by (try exact Hb; lia). go. nx. nx. cbn [finish]. go.
    rewrite Nat2Z.id. reflexivity.
Qed.
End Lib.
