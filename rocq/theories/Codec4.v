(** The codec property proofs restated with the hypothesis [good]. *)
From Verif Require Import Bytes XdrLib Types Interp Spec Prim Meta Enc Dec Total Canon Local Runs
  Codec Codec2 Alloc Codec3.
Open Scope string_scope.
Open Scope Z_scope.
Open Scope list_scope.

Section G.
Variables (D : nat) (E : env) (t : cty).
Hypothesis G : good D E t.
Let Hwf : wf_env D E := proj1 G.
Let Ht : wf_ty D E t := proj1 (proj2 G).
Let Hz : zero D E t <> None := proj2 (proj2 G).

Definition g03 := c03 D E t Hwf Ht.
Definition g04 := c04 D E t Hwf Ht Hz.
Definition g05 := c05 D E t Hwf Ht Hz.
Definition g06 := c06 D E t Hwf Ht Hz.
Definition g07 := c07 D E t Hwf Ht Hz.
Definition g09 := c09 D E t Hwf Ht.
Definition g10 := c10 D E t Hwf Ht.
Definition g11_local := c11_local D E t Hwf Ht.
Definition g14 := c14 D E t Hwf Ht Hz.
Definition g15 := c15 D E t Hwf Ht.
Definition g16 := c16 D E t Hwf Ht Hz.
Definition g18_data := c18_data D E t Hwf Ht Hz.
Definition g18_no_ptr b u v := c18_no_ptr D E t b u v Hwf Ht Hz.
Definition g23 := c23 D E t Hwf Ht Hz.
End G.
