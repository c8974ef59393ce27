(** Bottom-up parsers.  An automaton is given by tables, with the items behind them; [lr_ok] checks the tables against the grammar; the driver is
    that of goyacc (xdrParse), but for reading tokens (see YaccRun.v) and error recovery (lexer.Error panics, scan.go:152-154). *)
From Coq Require Import Lia.
From Verif Require Import GoLex XLex Gram GParse MainSem MainScan YaccAst YaccSem.
Open Scope string_scope.
Open Scope list_scope.

Definition mem (x : string) (l : list string) : bool := existsb (String.eqb x) l.
Lemma mem_in x l : mem x l = true <-> In x l.
Proof. unfold mem. rewrite existsb_exists. split; [intros (y & I & E); apply String.eqb_eq in E; subst; exact I|intros I; exists x; split; [exact I|apply String.eqb_refl]]. Qed.

(** ** Tables.  States are numbers; 0 is the first.  An item: production, position in it, tokens that may follow. *)
Record lrstate : Type := mkLR {
  l_items : list (nat * nat * list string);
  l_shift : list (string * nat);
  l_reduce : list (string * nat);
  l_default : option nat;                                       (* reduction on all other tokens *)
  l_goto : list (string * nat) }.
Record lrtab : Type := mkTab {
  t_states : list lrstate;
  t_nullable : list string;
  t_first : list (string * list string);
  t_rank : list nat }.                                          (* see [rank_ok] *)
Definition no_state : lrstate := mkLR [] [] [] None [].
(** The production [$accept: spec] comes after those of the file; reducing it is accepting. *)
Definition endsym : string := "$end".
Definition augment (G : list prod) (start : string) : list prod := G ++ [mkProd "$accept" [start] None].
Inductive lract : Type := LShift (s : nat) | LReduce (k : nat) | LError.

Section Lr.
Variable G : list prod.
Variable start : string.
Variable T : lrtab.
Notation G' := (augment G start).
Definition state (s : nat) : lrstate := nth s (t_states T) no_state.
Definition rank (s : nat) : nat := nth s (t_rank T) 0.
Definition action (s : nat) (a : string) : lract :=
  match uassoc a (l_shift (state s)) with
  | Some s' => LShift s'
  | None =>
      match uassoc a (l_reduce (state s)) with
      | Some k => LReduce k
      | None => match l_default (state s) with Some k => LReduce k | None => LError end
      end
  end.
Definition goto (s : nat) (X : string) : option nat := uassoc X (l_goto (state s)).
Definition la (ts : list ytok) : string := match ts with [] => endsym | y :: _ => ysym y end.

(** ** The driver, making trees *)
Inductive outcome : Type := LAcc (t : pt) | LErr (stk : list (nat * pt)) (rest : list ytok) | LOut.
Definition top {A} (stk : list (nat * A)) : nat := match stk with [] => 0 | (s, _) :: _ => s end.
Fixpoint lrt (j : nat) (stk : list (nat * pt)) (ts : list ytok) : outcome :=
  match j with
  | O => LOut
  | S j =>
      match action (top stk) (la ts) with
      | LShift s => match ts with y :: ts => lrt j ((s, PTok y) :: stk) ts | [] => LOut end
      | LReduce k =>
          match nth_error G k with
          | Some p =>
              let c := List.length (p_rhs p) in
              if Nat.ltb (List.length stk) c then LOut else
              match goto (top (skipn c stk)) (p_lhs p) with
              | Some s => lrt j ((s, PNode k (rev (map snd (firstn c stk)))) :: skipn c stk) ts
              | None => LOut
              end
          | None => match stk with [(_, t)] => LAcc t | _ => LOut end
          end
      | LError => LErr stk ts
      end
  end.

(** ** Checks *)
Definition is_nt (X : string) : bool := existsb (fun p => String.eqb (p_lhs p) X) G'.
Definition nullable (X : string) : bool := mem X (t_nullable T).
Definition first (X : string) : list string := match uassoc X (t_first T) with Some l => l | None => [] end.
Fixpoint firsts (Xs : list string) (a : string) : list string :=
  match Xs with
  | [] => [a]
  | X :: Xs => if is_nt X then first X ++ (if nullable X then firsts Xs a else []) else [X]
  end.
Definition subset (l l' : list string) : bool := forallb (fun x => mem x l') l.
(** First and nullable are closed. *)
Definition first_ok : bool :=
  forallb (fun p =>
    implb (forallb nullable (p_rhs p)) (nullable (p_lhs p)) &&
    forallb (fun x => String.eqb x "" || mem x (first (p_lhs p))) (firsts (p_rhs p) "")) G.
Definition has_item (s k i : nat) (a : string) : bool :=
  existsb (fun it : nat * nat * list string => Nat.eqb (fst (fst it)) k && Nat.eqb (snd (fst it)) i && mem a (snd it)) (l_items (state s)).
Definition some_item (s k i : nat) : bool :=
  existsb (fun it : nat * nat * list string => Nat.eqb (fst (fst it)) k && Nat.eqb (snd (fst it)) i) (l_items (state s)).
Definition trans (s : nat) (X : string) : option nat := if is_nt X then goto s X else uassoc X (l_shift (state s)).
(** An item of a state: what must follow is provided for. *)
Definition item_ok (s : nat) (it : nat * nat * list string) : bool :=
  let '(k, i, las) := it in
  match nth_error G' k with
  | None => false
  | Some p =>
      match nth_error (p_rhs p) i with
      | None => Nat.eqb i (List.length (p_rhs p)) && forallb (fun a => match action s a with LReduce k' => Nat.eqb k k' | _ => false end) las
      | Some X =>
          match trans s X with
          | None => false
          | Some s' => forallb (has_item s' k (S i)) las
          end &&
          (if is_nt X then
             let bs := flat_map (firsts (skipn (S i) (p_rhs p))) las in
             forallb (fun k' => match nth_error G' k' with Some p' => implb (String.eqb (p_lhs p') X) (forallb (has_item s k' 0) bs) | None => true end) (seq 0 (List.length G'))
           else true)
      end
  end.
Definition all_states (f : nat -> bool) : bool := forallb f (seq 0 (List.length (t_states T))).
(** Reductions are those of complete items; accepting only at the end. *)
Definition reduce_ok (s : nat) : bool :=
  let ok k := match nth_error G' k with Some p => some_item s k (List.length (p_rhs p)) | None => false end in
  forallb (fun r : string * nat => ok (snd r) && implb (Nat.eqb (snd r) (List.length G)) (String.eqb (fst r) endsym)) (l_reduce (state s)) &&
  match l_default (state s) with Some k => ok k && negb (Nat.eqb k (List.length G)) | None => true end.
(** Whatever leads to a state, leads to it with the symbol before the position, from a state with the item before. *)
Definition trans_ok (s : nat) : bool :=
  forallb (fun e : string * nat =>
    forallb (fun it : nat * nat * list string =>
      match snd (fst it) with
      | O => true
      | S i => match nth_error G' (fst (fst it)) with Some p => match nth_error (p_rhs p) i with Some X => String.eqb X (fst e) | None => false end | None => false end
               && some_item s (fst (fst it)) i
      end) (l_items (state (snd e)))) (l_shift (state s) ++ l_goto (state s)) &&
  forallb (fun e : string * nat => negb (is_nt (fst e)) && negb (String.eqb (fst e) endsym)) (l_shift (state s)) &&
  forallb (fun e : string * nat => is_nt (fst e)) (l_goto (state s)).
(** The first state has no item with something before the position. *)
Definition zero_ok : bool :=
  forallb (fun it : nat * nat * list string => Nat.eqb (snd (fst it)) 0) (l_items (state 0)) && has_item 0 (List.length G) 0 endsym.
(** After a reduction there is somewhere to go. *)
Definition goto_ok (s : nat) : bool :=
  forallb (fun it : nat * nat * list string =>
    let '(k, i, _) := it in
    if Nat.eqb i 0 && Nat.ltb k (List.length G) then match nth_error G k with Some p => match goto s (p_lhs p) with Some _ => true | None => false end | None => false end else true) (l_items (state s)).
(** The first state is left for good, and only there a whole text begins. *)
Definition acc_ok (s : nat) : bool :=
  implb (some_item s (List.length G) 0) (Nat.eqb s 0) && forallb (fun e : string * nat => negb (Nat.eqb (snd e) 0)) (l_shift (state s) ++ l_goto (state s)).
(** The sum of stack height and rank of the top decreases with every reduction. *)
Definition reductions (s : nat) : list nat := map snd (l_reduce (state s)) ++ match l_default (state s) with Some k => [k] | None => [] end.
Definition rank_ok (s : nat) : bool :=
  forallb (fun k =>
    match nth_error G k with
    | None => true
    | Some p =>
        all_states (fun s0 => implb (some_item s0 k 0 && (negb (Nat.eqb (List.length (p_rhs p)) 0) || Nat.eqb s0 s))
          match goto s0 (p_lhs p) with Some s' => Nat.ltb (1 + rank s') (rank s + List.length (p_rhs p)) | None => true end)
    end) (reductions s).
Definition tok_syms : list string := "IDENT" :: "CONST" :: map ysym plain_toks.
Definition lr_ok : bool :=
  first_ok && zero_ok && forallb (fun x => negb (is_nt x)) tok_syms && negb (is_nt endsym) &&
  all_states (fun s => forallb (item_ok s) (l_items (state s)) && reduce_ok s && trans_ok s && goto_ok s && acc_ok s && rank_ok s).
End Lr.
