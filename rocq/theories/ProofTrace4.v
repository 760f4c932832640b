(** * ProofTrace4: matmul, dot and src/nn, with arbitrary arguments *)
From stdpp Require Import gmap list.
From Coq Require Import ZArith Lia Floats.SpecFloat.
From Verif Require Import Base Mem Spec ModelCore ModelBasic ModelMath ModelNN.
From Verif Require Import ProofTrace ProofTrace2 ProofTrace3.
Open Scope Z_scope.

Section Matmul.
  Context (E : env) (F : gmap nat block).
  Notation op m := (forall L, tr E F L m (opQ L)).

  Lemma tr_zeros t dims nd o : op (zeros_like t dims nd o).
  Proof. un zeros_like. Qed.
  Hint Resolve tr_zeros : tr.
  Lemma tr_vv_template dt x y z n L : inside L z -> tr E F L (vv_template dt x y z n) (stQ L).
  Proof. un vv_template. Qed.
  Lemma tr_mv_template dt x y z m n L : inside L z -> tr E F L (mv_template dt x y z m n) (stQ L).
  Proof. un mv_template. Qed.
  Lemma tr_mm_template dt x y z m k n L : inside L z -> tr E F L (mm_template dt x y z m k n) (stQ L).
  Proof. un mm_template. Qed.
  Lemma tr_bmm_template dt x xs y ys z zs m k n b L :
    inside L z -> tr E F L (batch_mm_template dt x xs y ys z zs m k n b) (stQ L).
  Proof. un batch_mm_template. Qed.
  Hint Extern 1 (tr _ _ _ (vv_template _ _ _ _ _) _) => eapply tr_vv_template; ins : tr.
  Hint Extern 1 (tr _ _ _ (mv_template _ _ _ _ _ _) _) => eapply tr_mv_template; ins : tr.
  Hint Extern 1 (tr _ _ _ (mm_template _ _ _ _ _ _ _) _) => eapply tr_mm_template; ins : tr.
  Hint Extern 1 (tr _ _ _ (batch_mm_template _ _ _ _ _ _ _ _ _ _ _) _) => eapply tr_bmm_template; ins : tr.
  Lemma tr_batches t1 t2 nb m k n offs a b c p pd pm ps px L :
    (forall L i, kr E F L (offs i)) ->
    IT p pd pm ps px ∈ L -> tr E F L (matmul_batches t1 t2 (HPtr p) nb m k n offs a b c) (stQ L).
  Proof. intros Ho Hi. unfold matmul_batches. ts. Qed.
  Hint Extern 1 (tr _ _ _ (matmul_batches _ _ _ _ _ _ _ _ _ _ _) _) => eapply tr_batches; [kr|mem] : tr.
  Lemma tr_matmul_vv t1 t2 o : op (matmul_vv t1 t2 o). Proof. un matmul_vv. Qed.
  Lemma tr_matmul_mv t1 t2 o : op (matmul_mv t1 t2 o). Proof. un matmul_mv. Qed.
  Lemma tr_matmul_mm t1 t2 o : op (matmul_mm t1 t2 o). Proof. un matmul_mm. Qed.
  Lemma tr_matmul_vm t1 t2 o : op (matmul_vm t1 t2 o). Proof. un matmul_vm. Qed.
  Lemma tr_matmul_tv t1 t2 o n : op (matmul_tv t1 t2 o n). Proof. un matmul_tv. Qed.
  Lemma tr_matmul_vt t1 t2 o n : op (matmul_vt t1 t2 o n). Proof. un matmul_vt. Qed.
  Lemma tr_matmul_tt t1 t2 o n m : op (matmul_tt t1 t2 o n m). Proof. un matmul_tt. Qed.
  Hint Resolve tr_matmul_vv tr_matmul_mv tr_matmul_mm tr_matmul_vm tr_matmul_tv tr_matmul_vt tr_matmul_tt : tr.
  Lemma tr_matmul t1 t2 o : op (aitisa_matmul t1 t2 o).
  Proof. un aitisa_matmul. Qed.
  Hint Resolve tr_matmul : tr.

  (** ** src/math/dot.c *)
  Lemma tr_scalar_mul t1 t2 o : op (scalar_tensor_mul t1 t2 o).
  Proof. un scalar_tensor_mul. Qed.
  Lemma tr_vvdot t1 t2 o : op (vector_vector_dot t1 t2 o).
  Proof. un vector_vector_dot. Qed.
  Hint Resolve tr_scalar_mul tr_vvdot : tr.
  Lemma tr_tvdot t1 t2 o : op (tensor_vector_dot t1 t2 o).
  Proof. un tensor_vector_dot. Qed.
  Lemma tr_mddot t1 t2 o : op (multidim_dot t1 t2 o).
  Proof. un multidim_dot. Qed.
  Hint Resolve tr_tvdot tr_mddot : tr.
  Lemma tr_dot t1 t2 o : op (aitisa_dot t1 t2 o).
  Proof. un aitisa_dot. Qed.
End Matmul.
#[export] Hint Resolve tr_matmul tr_dot : tr.
