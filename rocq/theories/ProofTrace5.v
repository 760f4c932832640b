(** * ProofTrace5: src/nn, with arbitrary arguments *)
From stdpp Require Import gmap list.
From Coq Require Import ZArith Lia Floats.SpecFloat.
From Verif Require Import Base Mem Spec ModelCore ModelBasic ModelMath ModelNN.
From Verif Require Import ProofTrace ProofTrace2 ProofTrace3 ProofTrace4.
Open Scope Z_scope.

Section NN.
  Context (E : env) (F : gmap nat block).
  Notation op m := (forall L, tr E F L m (opQ L)).

  Lemma tr_like t o : op (nn_create_like t o).
  Proof. un nn_create_like. Qed.
  Hint Resolve tr_like : tr.
  Lemma tr_map_kernel f c t n p pd pm ps px L :
    (forall v, kr E F L (f v)) ->
    IT p pd pm ps px ∈ L -> tr E F L (map_kernel f c t (HPtr p) n) (stQ L).
  Proof. intros Hf Hi. unfold map_kernel. ts. Qed.
  Hint Extern 1 (tr _ _ _ (map_kernel _ _ _ _ _) _) => eapply tr_map_kernel; [solve [kr]|mem] : tr.
  Lemma tr_relu t o : op (aitisa_relu t o). Proof. un aitisa_relu. Qed.
  Lemma tr_sigmoid t o : op (aitisa_sigmoid t o). Proof. un aitisa_sigmoid. Qed.
  Lemma tr_tanh t o : op (aitisa_tanh t o). Proof. un aitisa_tanh. Qed.

  Lemma tr_dropout_template r p pd pm ps px L :
    IT p pd pm ps px ∈ L -> tr E F L (dropout_template (HPtr p) r) (stQ L).
  Proof. un dropout_template. Qed.
  Hint Extern 1 (tr _ _ _ (dropout_template _ _) _) => eapply tr_dropout_template; mem : tr.
  Lemma tr_dropout t r o : op (aitisa_dropout t r o).
  Proof. un aitisa_dropout. Qed.

  Lemma tr_softmax_create t o : op (softmax_create_output t o).
  Proof. un softmax_create_output. Qed.
  Lemma tr_softmax_all t p pd pm ps px L :
    IT p pd pm ps px ∈ L -> tr E F L (softmax_with_all t (HPtr p)) (stQ L).
  Proof. un softmax_with_all. Qed.
  Lemma tr_softmax_axis t a p pd pm ps px L :
    IT p pd pm ps px ∈ L -> tr E F L (softmax_along_axis t a (HPtr p)) (stQ L).
  Proof. un softmax_along_axis. Qed.
  Hint Resolve tr_softmax_create : tr.
  Hint Extern 1 (tr _ _ _ (softmax_with_all _ _) _) => eapply tr_softmax_all; mem : tr.
  Hint Extern 1 (tr _ _ _ (softmax_along_axis _ _ _) _) => eapply tr_softmax_axis; mem : tr.
  Lemma tr_softmax t a o : op (aitisa_softmax t a o).
  Proof. un aitisa_softmax. Qed.

  (** ** src/nn/pooling.c *)
  Lemma tr_pool_create t k s p d o : op (pooling_create_output t k s p d o).
  Proof. un pooling_create_output. Qed.
  Hint Resolve tr_pool_create : tr.
  Lemma tr_ct_while {S} L (body : S -> M (ctl (S * bool) status)) s :
    (forall s, tr E F L (body s) (ctQ L)) -> tr E F L (while_ret body s) (ctQ L).
  Proof.
    intros H. unfold while_ret.
    enough (forall n s, tr E F L (while_ret_fuel n body s) (ctQ L)) as G by (intros x I; exact (G _ _ _ I)).
    intros n. induction n as [|n IH]; intros s1; cbn [while_ret_fuel]; [apply tr_diverge|].
    eapply tr_bind; [apply H|]. intros [[y []]|r] L'; cbn; [intros ->; apply IH|intros ->; by apply tr_ret|]. intros Hr. by apply tr_ret.
  Qed.
  Hint Extern 2 (tr _ _ _ (while_ret _ _) _) => apply tr_ct_while; solve [ts] : tr.
  Hint Extern 2 (tr _ _ _ (iter_ret _ _ _ _) _) => apply tr_ct_iter; solve [ts] : tr.
  Lemma tr_pool_window mode dt ind n dims str dil head tail bc L :
    tr E F L (pool_window mode dt ind n dims str dil head tail bc) (ctQ L).
  Proof. un pool_window. Qed.
  Hint Resolve tr_pool_window : tr.
  Lemma tr_pool_channel mode dt ind outd n dims str ostr k s p d w b c L :
    inside L outd -> tr E F L (pool_channel mode dt ind outd n dims str ostr k s p d w b c) (ctQ L).
  Proof. un pool_channel. Qed.
  Hint Extern 1 (tr _ _ _ (pool_channel _ _ _ _ _ _ _ _ _ _ _ _ _ _ _) _) => eapply tr_pool_channel; ins : tr.
  Lemma tr_pooling_double t m k s p d o : op (pooling_double t m k s p d o).
  Proof. un pooling_double. Qed.
  Hint Resolve tr_pooling_double : tr.
  Lemma tr_pooling t m k s p d o : op (aitisa_pooling t m k s p d o).
  Proof. un aitisa_pooling. Qed.

  (** ** src/nn/conv.c *)
  (** A convolution makes a tensor whatever status it happens to return. *)
  Definition cvQ (o : hval) (L : list item) (r : status * hval) (L' : list item) : Prop :=
    (exists p pd pm ps px, r.2 = HPtr p /\ L' = IT p pd pm ps px :: L) \/
    (r.1 <> SUCCESS /\ r.2 = o /\ L `suffix_of` L').
  Lemma tr_conv_float t f s p d o L : tr E F L (aitisa_conv_float t f s p d o) (cvQ o L).
  Proof.
    un aitisa_conv_float.
    - apply tr_ret. left. cbn [snd]. do 5 eexists. split; reflexivity.
    - apply tr_ret. right. cbn [fst snd]. split; [done|]. split; [done|suf].
  Qed.
  Lemma tr_conv t f s p d g o L : tr E F L (aitisa_conv t f s p d g o) (cvQ o L).
  Proof.
    unfold aitisa_conv. apply tr_kr; [solve [kr]|]. intros dt. case_on (d_code dt =? code_of F32).
    - eapply tr_bind; [apply tr_conv_float|]. intros [st h] L' [(q & pd & pm & ps & px & e & ->)|(n & e & H)]; cbn in *; subst h.
      + case_on (negb (bool_decide (st = SUCCESS))).
        * apply tr_kr; [solve [kr]|]. intros g'. apply tr_ret. left. cbn. do 5 eexists. split; reflexivity.
        * apply tr_ret. left. cbn. do 5 eexists. split; reflexivity.
      + case_on (negb (bool_decide (st = SUCCESS))). apply tr_ret. right. done.
    - apply tr_ret. right. cbn. split; [done|]. split; [done|suf].
  Qed.
  Lemma tr_conv2d t f s p d g o L : tr E F L (aitisa_conv2d t f s p d g o) (cvQ o L).
  Proof.
    unfold aitisa_conv2d. apply tr_kr; [solve [kr]|]. intros n. destruct (negb (n =? 4)); [|apply tr_conv].
    apply tr_ret. right. cbn. split; [done|]. split; [done|suf].
  Qed.
  Lemma tr_conv3d t f s p d g o L : tr E F L (aitisa_conv3d t f s p d g o) (cvQ o L).
  Proof.
    unfold aitisa_conv3d. apply tr_kr; [solve [kr]|]. intros n. destruct (negb (n =? 5)); [|apply tr_conv].
    apply tr_ret. right. cbn. split; [done|]. split; [done|suf].
  Qed.

  (** ** src/nn/batch_norm.c *)
  Lemma tr_bn_row t sc bi me de b sz st od el i L :
    inside L od -> tr E F L (bn_row t sc bi me de b sz st od el i) (ctQ L).
  Proof. intros. unfold bn_row, try_. ts. Qed.
  Hint Extern 1 (tr _ _ _ (bn_row _ _ _ _ _ _ _ _ _ _ _) _) => eapply tr_bn_row; ins : tr.
  Lemma tr_bn_without t sc bi me de p pd pm ps px L :
    IT p pd pm ps px ∈ L -> tr E F L (batch_norm_without_channel t sc bi me de (HPtr p)) (stQ L).
  Proof. un batch_norm_without_channel. Qed.
  Lemma tr_bn_channel t sc bi me de p pd pm ps px b sz st ax c idx offs L :
    IT p pd pm ps px ∈ L -> tr E F L (bn_channel t sc bi me de (HPtr p) b sz st ax c idx offs) (ctQ L).
  Proof. intros. unfold bn_channel, try_. ts. Qed.
  Hint Extern 1 (tr _ _ _ (bn_channel _ _ _ _ _ _ _ _ _ _ _ _ _) _) => eapply tr_bn_channel; mem : tr.
  Lemma tr_bn_with t ax sc bi me de p pd pm ps px L :
    IT p pd pm ps px ∈ L -> tr E F L (batch_norm_with_channel t ax sc bi me de (HPtr p)) (stQ L).
  Proof. un batch_norm_with_channel. Qed.
End NN.
