(** * ProofConv5: convolutions whose windows fit into the padded input *)
From stdpp Require Import gmap list.
From Coq Require Import ZArith Lia Reals Floats.SpecFloat.
From Verif Require Import Base Mem Spec SpecReal SpecNN SpecConv ModelCore ModelBasic ModelMath ModelNN Logic
  ProofCore ProofCore2 ProofConvWin ProofConv ProofConv2 ProofConv3 ProofConv4.
Open Scope Z_scope.

(** The windows that fit are a special case of those of [cv_ok]. *)
Ltac fit :=
  intros; match goal with H : win_ok ?a ?b ?c ?d ?e |- _ =>
    let Hc := fresh in let He := fresh in destruct (win_cv a b c d e H) as [Hc He]; rewrite <-He in *; clear H He end.

Lemma fit_conv_int p pf T F nb nc oc fc sd ks ss ps ls g A B o E s :
  wf s -> alloc_all E -> hooks_ok E -> holds (heap s) p T -> holds (heap s) pf F ->
  a_type T = F32 -> a_type F = F32 ->
  a_dims T = nb :: nc :: sd -> a_dims F = oc :: fc :: ks -> nc <= fc -> 0 < nc ->
  (length sd <= 3)%nat -> win_ok sd ks ss ps ls ->
  fits (tsz F32) (nb :: oc :: win_outs sd ks ss ps ls) ->
  Forall (fun v => exists z, integral F32 v z /\ Z.abs z <= A) (a_vals T) ->
  Forall (fun v => exists z, integral F32 v z /\ Z.abs z <= B) (a_vals F) ->
  0 <= A -> 0 <= B -> A * B * (nc * prodZ ks) <= 2 ^ 24 ->
  exists T3, a_type T3 = F32 /\ a_dev T3 = a_dev T /\ a_dims T3 = nb :: oc :: win_outs sd ks ss ps ls /\ valid T3 /\
    (forall b c x, in_box (a_dims T3) (b :: c :: x) ->
       exists z, integral F32 (at_ T3 (b :: c :: x)) z /\ IZR z = dot_real (conv_terms T F ss ps ls nc b c x)) /\
    makes_saying (conv_status E) (aitisa_conv (HPtr p) (HPtr pf) ss ps ls g o) E s T3.
Proof. fit. eapply conv_int; eassumption. Qed.

Lemma fit_conv_if_success p pf T F nb nc oc fc sd ks ss ps ls g o E s :
  wf s -> alloc_all E -> hooks_ok E -> holds (heap s) p T -> holds (heap s) pf F ->
  a_type T = F32 -> a_type F = F32 ->
  a_dims T = nb :: nc :: sd -> a_dims F = oc :: fc :: ks -> nc <= fc -> 0 < nc ->
  (length sd <= 3)%nat -> win_ok sd ks ss ps ls ->
  fits (tsz F32) (nb :: oc :: win_outs sd ks ss ps ls) -> init T -> init F ->
  e_garbage E 0 = SUCCESS -> e_garbage E 1 = SUCCESS ->
  exists T3, makes (aitisa_conv (HPtr p) (HPtr pf) ss ps ls g o) E s T3 /\ init T3.
Proof. fit. eapply conv_if_success; eassumption. Qed.

Lemma fit_conv_exact p pf T F nb nc oc fc sd ks ss ps ls g o E s :
  wf s -> alloc_all E -> hooks_ok E -> holds (heap s) p T -> holds (heap s) pf F ->
  a_type T = F32 -> a_type F = F32 ->
  a_dims T = nb :: nc :: sd -> a_dims F = oc :: fc :: ks -> nc <= fc -> 0 < nc ->
  (length sd <= 3)%nat -> win_ok sd ks ss ps ls ->
  fits (tsz F32) (nb :: oc :: win_outs sd ks ss ps ls) ->
  ((forall b c x, in_box (nb :: oc :: win_outs sd ks ss ps ls) (b :: c :: x) ->
      mac_all F32 (zero_val F32) (conv_terms T F ss ps ls nc b c x) <> None) ->
   exists T3, a_type T3 = F32 /\ a_dev T3 = a_dev T /\ a_dims T3 = nb :: oc :: win_outs sd ks ss ps ls /\ valid T3 /\
     (forall b c x, in_box (a_dims T3) (b :: c :: x) ->
        mac_all F32 (zero_val F32) (conv_terms T F ss ps ls nc b c x) = Some (at_ T3 (b :: c :: x))) /\
     makes_saying (conv_status E) (aitisa_conv (HPtr p) (HPtr pf) ss ps ls g o) E s T3) /\
  ((exists b c x, in_box (nb :: oc :: win_outs sd ks ss ps ls) (b :: c :: x) /\
      mac_all F32 (zero_val F32) (conv_terms T F ss ps ls nc b c x) = None) ->
   aitisa_conv (HPtr p) (HPtr pf) ss ps ls g o E s = UB UB_uninit).
Proof. fit. eapply conv_exact; eassumption. Qed.

Lemma fit_conv_float_any p pf T F T3 nb nc oc fc sd ks ss ps ls o E s :
  wf s -> alloc_all E -> hooks_ok E -> holds (heap s) p T -> holds (heap s) pf F ->
  a_type T = F32 -> a_type F = F32 ->
  a_dims T = nb :: nc :: sd -> a_dims F = oc :: fc :: ks -> nc <= fc -> 0 <= nc ->
  (length sd <= 3)%nat -> win_ok sd ks ss ps ls ->
  a_type T3 = F32 -> a_dev T3 = a_dev T -> a_dims T3 = nb :: oc :: win_outs sd ks ss ps ls -> valid T3 ->
  (forall b c x, in_box (a_dims T3) (b :: c :: x) ->
     conv_val nc (conv_terms T F ss ps ls nc b c x) = Some (at_ T3 (b :: c :: x))) ->
  makes_saying (e_garbage E 0) (aitisa_conv_float (HPtr p) (HPtr pf) ss ps ls o) E s T3.
Proof. fit. eapply conv_float_any; eassumption. Qed.

Lemma fit_conv_rule : forall p pf T F nb nc oc fc sd ks ss ps ls g o E s,
  wf s -> alloc_all E -> hooks_ok E -> holds (heap s) p T -> holds (heap s) pf F ->
  a_type T = F32 -> a_type F = F32 ->
  a_dims T = nb :: nc :: sd -> a_dims F = oc :: fc :: ks -> nc <= fc -> 0 < nc ->
  (length sd <= 3)%nat -> win_ok sd ks ss ps ls -> forall T3,
  a_type T3 = F32 -> a_dev T3 = a_dev T -> a_dims T3 = nb :: oc :: win_outs sd ks ss ps ls -> valid T3 ->
  (forall b c x, in_box (a_dims T3) (b :: c :: x) ->
     mac_all F32 (zero_val F32) (conv_terms T F ss ps ls nc b c x) = Some (at_ T3 (b :: c :: x))) ->
  makes_saying (conv_status E) (aitisa_conv (HPtr p) (HPtr pf) ss ps ls g o) E s T3.
Proof. fit. eapply conv_rule; eassumption. Qed.

Lemma fit_conv_total : forall p pf T F nb nc oc fc sd ks ss ps ls g o E s,
  wf s -> alloc_all E -> hooks_ok E -> holds (heap s) p T -> holds (heap s) pf F ->
  a_type T = F32 -> a_type F = F32 ->
  a_dims T = nb :: nc :: sd -> a_dims F = oc :: fc :: ks -> nc <= fc -> 0 < nc ->
  (length sd <= 3)%nat -> win_ok sd ks ss ps ls ->
  fits (tsz F32) (nb :: oc :: win_outs sd ks ss ps ls) -> init T -> init F ->
  exists T3, a_type T3 = F32 /\ a_dev T3 = a_dev T /\ a_dims T3 = nb :: oc :: win_outs sd ks ss ps ls /\
    valid T3 /\ init T3 /\
    (forall b c x, in_box (a_dims T3) (b :: c :: x) ->
       mac_all F32 (zero_val F32) (conv_terms T F ss ps ls nc b c x) = Some (at_ T3 (b :: c :: x))) /\
    makes_saying (conv_status E) (aitisa_conv (HPtr p) (HPtr pf) ss ps ls g o) E s T3.
Proof. fit. eapply conv_total; eassumption. Qed.

Lemma fit_conv_groups : forall p pf T F nb nc oc fc sd ks ss ps ls g o E s,
  wf s -> alloc_all E -> hooks_ok E -> holds (heap s) p T -> holds (heap s) pf F ->
  a_type T = F32 -> a_dims T = nb :: nc :: sd -> a_dims F = oc :: fc :: ks ->
  0 < nc -> 0 < fc -> (length sd <= 3)%nat -> win_ok sd ks ss ps ls ->
  fits (tsz F32) (nb :: oc :: win_outs sd ks ss ps ls) ->
  a_type F = F32 -> fc < nc -> init T -> init F -> 0 < nb -> 0 < oc ->
  forall x w, in_box (win_outs sd ks ss ps ls) x -> in_box ks w -> in_box sd (win_coord ss ps ls x w) ->
  aitisa_conv (HPtr p) (HPtr pf) ss ps ls g o E s = Abort.
Proof. fit. eapply conv_groups; eassumption. Qed.

Lemma fit_conv_filter_other : forall p pf T F nb nc oc fc sd ks ss ps ls g o E s,
  wf s -> alloc_all E -> hooks_ok E -> holds (heap s) p T -> holds (heap s) pf F ->
  a_type T = F32 -> a_dims T = nb :: nc :: sd -> a_dims F = oc :: fc :: ks ->
  0 < nc -> 0 < fc -> (length sd <= 3)%nat -> win_ok sd ks ss ps ls ->
  fits (tsz F32) (nb :: oc :: win_outs sd ks ss ps ls) ->
  a_type F <> F32 -> (4 <= tsz (a_type F))%nat -> Forall (fun v => v <> VU) (a_vals F) -> 0 < nb -> 0 < oc ->
  forall x w, in_box (win_outs sd ks ss ps ls) x -> in_box ks w -> in_box sd (win_coord ss ps ls x w) ->
  aitisa_conv (HPtr p) (HPtr pf) ss ps ls g o E s = UB UB_type.
Proof. fit. eapply conv_filter_other; eassumption. Qed.
