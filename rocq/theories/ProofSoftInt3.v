(** * ProofSoftInt3: aitisa_softmax on integer tensors *)
From stdpp Require Import gmap list list_numbers.
From Coq Require Import ZArith Lia ZifyBool ZifyNat Reals Lra Floats.SpecFloat.
From Flocq Require Import Core IEEE754.BinarySingleNaN.
From Verif Require Import Base Mem Spec SpecReal SpecNN SpecError SpecSoft SpecExp SpecSoftInt ModelCore ModelNN.
From Verif Require Import ProofCore ProofCore2 ProofCore3 ProofIndex ProofKernel ProofKernel2 ProofBasic ProofError ProofFloat ProofFloat2 ProofFloat3 ProofFloat4 ProofSoftmax ProofSoftmax2 ProofSoftmax3
  ProofExp ProofSoftInt ProofSoftInt2.
Open Scope Z_scope.

Lemma ints_of t vs : is_float t = false -> Forall (val_ok t) vs ->
  vs = VI <$> ints vs /\ Forall (within t) (ints vs).
Proof.
  intros Ht. induction 1 as [|v vs Hv _ [IH1 IH2]]; [split; [done|constructor]|].
  destruct v as [z|f|]; [|destruct Hv; congruence|done]. destruct Hv as [_ Hv]. unfold ints in *. cbn [fmap list_fmap].
  split; [by rewrite <-IH1|by constructor].
Qed.

Lemma softmax_int_all p T o E s :
  wf s -> alloc_all E -> holds (heap s) p T -> init T -> is_float (a_type T) = false -> exp_std (e_exp E) ->
  (int_lane_ok (a_type T) (ints (a_vals T)) ->
   exists us, Forall (fun u => u = 0 \/ u = 1) us /\
     (tmax (a_type T) < 2 ^ 32 -> prodZ (a_dims T) <= 2 ^ 21 -> us = one_hot (ints (a_vals T))) /\
     makes (aitisa_softmax (HPtr p) (-1) o) E s (AT (a_type T) (a_dev T) (a_dims T) (VI <$> us))) /\
  (~ int_lane_ok (a_type T) (ints (a_vals T)) -> aitisa_softmax (HPtr p) (-1) o E s = UB UB_fconv).
Proof.
  intros Hwf HA HT Hin Hf Hex. pose proof HT as [HvT _].
  destruct (ints_of _ _ Hf Hin) as [Ev Hw]. destruct (lane_int _ Hf _ Hex _ Hw) as [H1 H2].
  pose proof (softmax_all_exact p T o E s Hwf HA HT Hin) as HX. rewrite <-Ev in H1, H2. split.
  - intros Hok. destruct (H2 Hok) as (us & Hs & Hl & H01 & Hoh). rewrite Hs in HX. exists us.
    split_and!; [done| |done]. intros Ht32 Hp. apply Hoh; [done|].
    pose proof (valid_len _ HvT) as Hlen. unfold ints. rewrite fmap_length. lia.
  - intros Hno. by rewrite (H1 Hno) in HX.
Qed.

Lemma softmax_int_axis p T a d o E s :
  wf s -> alloc_all E -> hooks_ok E -> holds (heap s) p T -> init T -> is_float (a_type T) = false -> exp_std (e_exp E) ->
  Forall (fun d => 0 < d) (a_dims T) -> 2 * prodZ (a_dims T) <= INT64_MAX -> a_dims T !! a = Some d ->
  ((forall c, in_box (a_dims T) c -> int_lane_ok (a_type T) (ints (lane T a c))) ->
   exists T3, a_type T3 = a_type T /\ a_dev T3 = a_dev T /\ a_dims T3 = a_dims T /\
     (forall c j, in_box (a_dims T) c -> c !! a = Some j ->
        exists u, at_ T3 c = VI u /\ (u = 0 \/ u = 1) /\
          (tmax (a_type T) < 2 ^ 32 -> d <= 2 ^ 21 -> one_hot (ints (lane T a c)) !! Z.to_nat j = Some u)) /\
     makes (aitisa_softmax (HPtr p) (Z.of_nat a) o) E s T3) /\
  (forall c, in_box (a_dims T) c -> ~ int_lane_ok (a_type T) (ints (lane T a c)) ->
     aitisa_softmax (HPtr p) (Z.of_nat a) o E s = UB UB_fconv).
Proof.
  intros Hwf HA HE HT Hin Hf Hex Hpos Hmax Ha. pose proof HT as [HvT _].
  assert (forall c, in_box (a_dims T) c -> lane T a c = VI <$> ints (lane T a c) /\ Forall (within (a_type T)) (ints (lane T a c))) as HL.
  { intros c Hc. apply ints_of; [done|]. by eapply lane_init. }
  split.
  - intros Hok.
    destruct (softmax_axis_defined p T a d o E s Hwf HA HE HT Hin Hpos Hmax Ha) as (T3 & H1 & H2 & H3 & H4 & Hm).
    { intros c Hc. destruct (HL c Hc) as [Ev Hw]. destruct (lane_int _ Hf _ Hex _ Hw) as [_ HX].
      destruct (HX (Hok c Hc)) as (us & Hs & _). rewrite Ev, Hs. done. }
    exists T3. split_and!; [done..| |done]. intros c j Hc Hj. destruct (H4 c j Hc Hj) as (ys & Hys & Hyj).
    destruct (HL c Hc) as [Ev Hw]. destruct (lane_int _ Hf _ Hex _ Hw) as [_ HX].
    destruct (HX (Hok c Hc)) as (us & Hs & Hlen & H01 & Hoh). rewrite Ev, Hs in Hys. injection Hys as <-.
    rewrite list_lookup_fmap in Hyj. destruct (us !! Z.to_nat j) as [u|] eqn:Hu; [|done]. cbn in Hyj. injection Hyj as Hyj.
    exists u. split_and!; [done|by apply (Forall_lookup_1 _ _ _ _ H01 Hu)|]. intros Ht32 Hd.
    rewrite <-Hoh; [done|done|]. unfold ints. rewrite fmap_length, (lane_length T a c d Ha). lia.
  - intros c Hc Hno. destruct (HL c Hc) as [Ev Hw]. destruct (lane_int _ Hf _ Hex _ Hw) as [HX _].
    eapply (softmax_axis_stuck p T a d c); try done. rewrite Ev. by apply HX.
Qed.

(** The correctly rounded exp is such a function. *)
Lemma exp_rounded_std : exp_std exp_rounded.
Proof.
  exists (uround F64). split_and!.
  - apply Rlt_le, uround_pos.
  - unfold uround. apply (bpow_le radix2 _ (-4)). unfold fprec. lia.
  - apply exp_rounded_close.
  - change (dbl_of_Z 0) with (S754_zero false).
    destruct (exp_rounded_val (S754_zero false) eq_refl) as (_ & H & _).
    replace (exp (RV (S754_zero false))) with 1%R in H by (symmetry; exact exp_0). rewrite rnd_R1 in H by done.
    apply H. apply (bpow_lt radix2 0). done.
Qed.
