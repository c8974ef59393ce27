(** Runs of the concurrent server for the examples of P_Conc.v. *)
From Verif Require Import Bytes XdrLib Types Interp Spec Runs Check RpcTypes RpcSpec RpcWire RpcDec Io Client CallSpec ClientP Server ServSpec
  ServerP ServerQ ServerX ExRpc ServerEx Heap HeapP HeapQ Conc ConcP ConcQ ConcR.
Open Scope string_scope.
Open Scope Z_scope.
Open Scope list_scope.

(** ** A scheduler: which goroutine moves next, and what the pool returns *)
Inductive action : Type :=
| AHdr (i : nat)                     (* reader [i]: read the header, or give up *)
| AGet (i : nat) (pick : option nat) (* reader [i]: getReqBuf, given this pool entry *)
| ABody (i : nat) | AGo (i : nat)
| AHandle (t : nat) | AWrite (t : nat) | APut (t : nat).   (* by position among the goroutines *)

Section Sched.
Context {W : Type}.
Variable srv : nat -> server W.

Definition split_at {A} (n : nat) (l : list A) : option (list A * A * list A) :=
  match skipn n l with x :: r => Some (firstn n l, x, r) | [] => None end.
Lemma split_at_eq {A} n (l : list A) a x b : split_at n l = Some (a, x, b) -> l = a ++ x :: b.
Proof.
  unfold split_at. destruct (skipn n l) as [|y r] eqn:E; [discriminate|]. intros [= <- <- <-].
  rewrite <- E. symmetry. apply firstn_skipn.
Qed.

Definition exec (a : action) (c : cfg W unit) : option (cfg W unit) :=
  let '(mkC h p f ts w cr hi) := c in
  if cr then None else
  match a with
  | AHdr i =>
      match k_rd (f i) with
      | RHdr acc =>
          if Nat.ltb (List.length acc) 4 then
            match stream_read (k_in (f i)) (4 - List.length acc) with
            | (s, d, None) => Some (mkC h p (updk f i (with_rd (f i) s (RHdr (acc ++ d)))) ts w false hi)
            | (s, d, Some e) => Some (mkC h p (updk f i (with_rd (f i) s (RDone (RIo (short_err (acc ++ d) e))))) ts w false hi)
            end
          else None
      | _ => None
      end
  | AGet i pick =>
      match k_rd (f i) with
      | RHdr acc =>
          if Nat.eqb (List.length acc) 4 then
            if Z.land (get_u32 acc) (2 ^ 31) =? 0 then None
            else
              let n := Z.to_nat (Z.land (get_u32 acc) 2147483647) in
              match pick with
              | None => Some (mkC (h ++ [zeros n]) p
                                (updk f i (with_rd (f i) (k_in (f i)) (RBody (mkSl (List.length h) 0 n n) []))) ts w false hi)
              | Some k =>
                  match split_at k p with
                  | Some (p1, b, p2) =>
                      if Nat.leb n (sl_cap b)
                      then Some (mkC h (p1 ++ p2)
                                   (updk f i (with_rd (f i) (k_in (f i)) (RBody (mkSl (sl_blk b) (sl_off b) n (sl_cap b)) []))) ts w false hi)
                      else None
                  | None => None
                  end
              end
          else None
      | _ => None
      end
  | ABody i =>
      match k_rd (f i) with
      | RBody b acc =>
          if Nat.ltb (List.length acc) (sl_len b) then
            match stream_read (k_in (f i)) (sl_len b - List.length acc) with
            | (s, d, None) => Some (mkC (hwrite h b (List.length acc) d) p (updk f i (with_rd (f i) s (RBody b (acc ++ d)))) ts w false hi)
            | _ => None
            end
          else None
      | _ => None
      end
  | AGo i =>
      match k_rd (f i) with
      | RBody b acc =>
          if Nat.eqb (List.length acc) (sl_len b) then
            Some (mkC h p
              (updk f i (mkK (k_in (f i)) (RHdr []) (k_out (f i)) (k_part (f i)) (k_broken (f i))
                             (k_reqs (f i) ++ [acc]) (k_quiet (f i)) (k_fail (f i))))
              (ts ++ [mkT i (List.length (k_reqs (f i))) b acc (TRun tt)]) w false hi)
          else None
      | _ => None
      end
  | AHandle n =>
      match split_at n ts with
      | Some (t1, mkT i k b o (TRun l), t2) =>
          match make_reply 40 (srv i) w (sread h b) with
          | Ret (w', inr r) =>
              if Nat.eqb (List.length (sread h b)) (sl_len b) then
                Some (mkC (hwrite h b 0 (sread h b)) p f (t1 ++ mkT i k b (sread h b) (TWrite r) :: t2) w' false
                        (hi ++ [mkEv i k w (HEnd w' (sread h b) (Some r))]))
              else None
          | Ret (w', inl e) =>
              if Nat.eqb (List.length (sread h b)) (sl_len b) then
                Some (mkC (hwrite h b 0 (sread h b)) p
                   (updk f i (mkK (k_in (f i)) (k_rd (f i)) (k_out (f i)) (k_part (f i)) (k_broken (f i))
                             (k_reqs (f i)) (k_quiet (f i) ++ [k]) (k_fail (f i))))
                   (t1 ++ mkT i k b (sread h b) TPut :: t2) w' false (hi ++ [mkEv i k w (HEnd w' (sread h b) None)]))
              else None
          | _ => None
          end
      | _ => None
      end
  | AWrite n =>
      match split_at n ts with
      | Some (t1, mkT i k b o (TWrite r), t2) =>
          if k_broken (f i) then None
          else Some (mkC h p
              (updk f i (mkK (k_in (f i)) (k_rd (f i)) (k_out (f i) ++ [(k, r)]) (k_part (f i)) false
                             (k_reqs (f i)) (k_quiet (f i)) (k_fail (f i))))
              (t1 ++ mkT i k b o TPut :: t2) w false hi)
      | _ => None
      end
  | APut n =>
      match split_at n ts with
      | Some (t1, mkT i k b o TPut, t2) => Some (mkC h (b :: p) f (t1 ++ t2) w false hi)
      | _ => None
      end
  end.

Lemma exec_sound a c c' : exec a c = Some c' -> step tt (reply_step srv) c c'.
Proof.
  destruct c as [h p f ts w cr hi]. unfold exec. destruct cr; [discriminate|]. destruct a as [i|i pick|i|i|n|n|n].
  - destruct (k_rd (f i)) as [acc| |] eqn:Er; try discriminate. destruct (Nat.ltb_spec (List.length acc) 4); [|discriminate].
    destruct (stream_read _ _) as [[s d] [e|]] eqn:Es; intros [= <-]; [eapply S_hdr_err|eapply S_hdr]; eassumption.
  - destruct (k_rd (f i)) as [acc| |] eqn:Er; try discriminate. destruct (Nat.eqb_spec (List.length acc) 4) as [El|]; [|discriminate].
    destruct (Z.eqb_spec (Z.land (get_u32 acc) (2 ^ 31)) 0) as [|Hb]; [discriminate|]. destruct pick as [k|].
    + destruct (split_at k p) as [[[p1 b] p2]|] eqn:Ep; [|discriminate]. apply split_at_eq in Ep.
      destruct (Nat.leb_spec (Z.to_nat (Z.land (get_u32 acc) 2147483647)) (sl_cap b)); [|discriminate]. intros [= <-].
      eapply S_get; try eassumption. eapply G_hit; eassumption.
    + intros [= <-]. eapply S_get; try eassumption. apply G_nil.
  - destruct (k_rd (f i)) as [|b acc|] eqn:Er; try discriminate. destruct (Nat.ltb_spec (List.length acc) (sl_len b)); [|discriminate].
    destruct (stream_read _ _) as [[s d] [e|]] eqn:Es; [discriminate|]. intros [= <-]. eapply S_body; eassumption.
  - destruct (k_rd (f i)) as [|b acc|] eqn:Er; try discriminate. destruct (Nat.eqb_spec (List.length acc) (sl_len b)); [|discriminate].
    intros [= <-]. eapply S_go; eassumption.
  - destruct (split_at n ts) as [[[t1 [i k b o [l|r|]]] t2]|] eqn:Et; try discriminate. apply split_at_eq in Et. subst ts.
    destruct (make_reply 40 (srv i) w (sread h b)) as [[w' [e|r]]| |] eqn:Em; try discriminate;
      (destruct (Nat.eqb_spec (List.length (sread h b)) (sl_len b)) as [El|]; [|discriminate]); intros [= <-].
    + eapply S_quiet; [eapply RS_err; exact Em|exact El].
    + eapply S_end; [eapply RS_reply; exact Em|exact El].
  - destruct (split_at n ts) as [[[t1 [i k b o [l|r|]]] t2]|] eqn:Et; try discriminate. apply split_at_eq in Et. subst ts.
    destruct (k_broken (f i)) eqn:Eb; [discriminate|]. intros [= <-]. apply S_write. exact Eb.
  - destruct (split_at n ts) as [[[t1 [i k b o [l|r|]]] t2]|] eqn:Et; try discriminate. apply split_at_eq in Et. subst ts.
    intros [= <-]. apply S_put.
Qed.

Fixpoint execs (l : list action) (c : cfg W unit) : option (cfg W unit) :=
  match l with [] => Some c | a :: l => match exec a c with Some c' => execs l c' | None => None end end.
Lemma steps_cons c1 c2 c3 : step tt (reply_step srv) c1 c2 -> steps tt (reply_step srv) c2 c3 -> steps tt (reply_step srv) c1 c3.
Proof. intros H K. induction K; econstructor; eauto. constructor. Qed.
Lemma execs_sound l : forall c c', execs l c = Some c' -> steps tt (reply_step srv) c c'.
Proof.
  induction l as [|a l IH]; intros c c' H; cbn in H.
  - injection H as <-. constructor.
  - destruct (exec a c) as [c1|] eqn:E; [|discriminate]. eapply steps_cons; [exact (exec_sound _ _ _ E)|]. apply IH. exact H.
Qed.
End Sched.

(** ** An echo server; the world counts invocations. *)
Definition exk_echo (x : option val) (w : Z) : outcome (Z * option val) := Ret (w + 1, Some (match x with Some (VBytes o) => VBytes o | _ => VBytes None end)).
Definition exk_stub : handler Z := stub [] (Some (CVarOpaque None)) (Some (CVarOpaque None)) exk_echo.
Definition exk_regs : list (registration Z) := [mkReg 9 1 1 (Some exk_stub)].
Definition exk_srv : server Z := RegisterMany MakeServer exk_regs.
Definition exk_req (xid : Z) (args : list byte) : list byte := call_hdr xid 2 9 1 1 null_auth null_auth ++ be4 (zlen args) ++ args.
Definition exk_rep (xid : Z) (args : list byte) : list byte := reply_accepted xid null_auth 0 ++ be4 (zlen args) ++ args.
Definition exk_a : list byte := [x01;x02;x03;x04].
Definition exk_b : list byte := [x0a;x0b;x0c;x0d].

Lemma exk_ok : reach exk_srv exk_regs /\ regs_ok exk_regs.
Proof.
  split; [apply (R_many _ [] exk_regs); constructor|]. intros r h [<-|[]] [= <-]. apply u_ok. split; [|split].
  - intros t [= <-]. exists 1%nat. apply (goodb_sound 1). reflexivity.
  - intros t [= <-]. exists 1%nat. apply (goodb_sound 1). reflexivity.
  - intros x w w' y [= _ <-]. eexists. split; [reflexivity|]. destruct x as [[]|]; constructor.
Qed.

(** Connection 0: two requests, the first cut in two; connection 1: one that is no call. *)
Definition exk_ins (i : nat) : list (list byte) * ioerr :=
  match i with
  | O => ([firstn 9 (record (exk_req 1 exk_a)); skipn 9 (record (exk_req 1 exk_a)); record (exk_req 2 exk_b)], EOF)
  | S O => ([record [x00; x00]], EOF)
  | _ => ([], EOF)
  end.
Lemma exk_ins_ok i : chunks_ok (fst (exk_ins i)).
Proof. destruct i as [|[|i]]; repeat constructor; vm_compute; congruence. Qed.

(** Both requests of connection 0 and the one of connection 1 are in flight at once; the
    second is answered first. *)
Definition exk_sched : list action :=
  [AHdr 0; AGet 0 None; ABody 0; AHdr 1; AGet 1 None; ABody 0; AGo 0; ABody 1; AGo 1; AHdr 0; AGet 0 None; ABody 0; AGo 0;
   AHandle 2; AWrite 2; AHandle 0; APut 2; AHandle 1; APut 1; AWrite 0; APut 0; AHdr 0; AHdr 1].
Lemma c42_ex : exists c, steps tt (reply_step (fun _ => exk_srv)) (init [] exk_ins 0) c /\
  c_tasks c = [] /\ k_rd (c_conns c 0) = RDone (RIo EOF) /\ k_rd (c_conns c 1) = RDone (RIo EOF) /\ c_world c = 2 /\
  k_reqs (c_conns c 0) = [exk_req 1 exk_a; exk_req 2 exk_b] /\ k_reqs (c_conns c 1) = [[x00; x00]] /\
  k_out (c_conns c 0) = [(1%nat, record (exk_rep 2 exk_b)); (0%nat, record (exk_rep 1 exk_a))] /\
  k_out (c_conns c 1) = [] /\ k_quiet (c_conns c 1) = [0%nat] /\ List.length (c_pool c) = 3%nat.
Proof.
  destruct (execs (fun _ => exk_srv) exk_sched (init [] exk_ins 0)) as [c|] eqn:E; [|vm_compute in E; discriminate].
  exists c. split; [exact (execs_sound _ _ _ _ E)|]. vm_compute in E. injection E as <-. vm_compute. repeat split.
Qed.

(** In flight: three goroutines, a reader in the middle of a body. *)
Lemma c40_ex : exists c, steps tt (reply_step (fun _ => exk_srv)) (init [] exk_ins 0) c /\
  List.length (c_tasks c) = 1%nat /\ exists b, k_rd (c_conns c 1) = RBody b [] /\ k_rd (c_conns c 0) = RHdr [].
Proof.
  destruct (execs (fun _ => exk_srv) (firstn 7 exk_sched) (init [] exk_ins 0)) as [c|] eqn:E; [|vm_compute in E; discriminate].
  exists c. split; [exact (execs_sound _ _ _ _ E)|]. vm_compute in E. injection E as <-. vm_compute. repeat split. eexists. split; reflexivity.
Qed.

(** ** C41: a slice kept from the first request changes when the second is read.  [c1]: the
    handler of the first request is about to run; [c2]: it has replied, the second request
    has been read into the same buffer. *)
Definition exk_args : slice := mkSl 0 40 8 8.
Lemma c41_bad : exists c1 c2 t sl,
  steps tt (reply_step (fun _ => exk_srv)) (init [] exk_ins 0) c1 /\
  steps tt (reply_step (fun _ => exk_srv)) c1 c2 /\
  c_tasks c1 = [t] /\ sread (c_heap c1) (tk_buf t) = exk_req 1 exk_a /\ part_of (tk_buf t) exk_args 40 /\
  hxdr exh_grow 3 [] (CVarOpaque None) (c_heap c1) (mkHst None true (Some exk_args)) (HBytes None)
    = Ret (c_heap c1, mkHst None true (Some (mkSl 0 48 0 0)), HBytes (Some sl)) /\
  sread (c_heap c1) sl = exk_a /\
  k_out (c_conns c2 0) = [(0%nat, record (exk_rep 1 exk_a))] /\
  sread (c_heap c2) sl = exk_b.
Proof.
  destruct (execs (fun _ => exk_srv) [AHdr 0; AGet 0 None; ABody 0; ABody 0; AGo 0] (init [] exk_ins 0)) as [c1|] eqn:E1; [|vm_compute in E1; discriminate].
  destruct (execs (fun _ => exk_srv) [AHandle 0; AWrite 0; APut 0; AHdr 0; AGet 0 (Some O); ABody 0] c1) as [c2|] eqn:E2.
  2:{ vm_compute in E1. injection E1 as <-. vm_compute in E2. discriminate. }
  exists c1, c2. pose proof (execs_sound _ _ _ _ E1) as S1. pose proof (execs_sound _ _ _ _ E2) as S2.
  vm_compute in E1. injection E1 as <-. vm_compute in E2. injection E2 as <-.
  eexists. exists (mkSl 0 44 4 4). split; [exact S1|]. split; [exact S2|]. cbn [c_tasks c_heap c_conns].
  split; [reflexivity|]. split; [reflexivity|]. split; [unfold part_of; cbn; lia|]. split; [vm_compute; reflexivity|].
  split; [reflexivity|]. split; [vm_compute; reflexivity|reflexivity].
Qed.
