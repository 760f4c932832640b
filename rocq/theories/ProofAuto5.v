(** * ProofAuto5: the convolution test of the harness *)
From stdpp Require Import gmap list.
From Coq Require Import ZArith Lia Reals Floats.SpecFloat.
From Coq Require Import ZifyBool ZifyNat.
From Verif Require Import Base Mem Spec SpecReal SpecNN SpecError SpecAuto ModelCore ModelBasic ModelMath ModelNN ModelSample ModelAuto ModelAuto3
  Logic ProofCore ProofCore2 ProofCore3 ProofIndex ProofKernel ProofKernel2 ProofBasic ProofBasic2 ProofSlice
  ProofMatmul ProofMatmul3 ProofFloat ProofFloat2 ProofFloat3 ProofFloat4 ProofCast ProofNN ProofWindow ProofPool ProofPool2 ProofPool3 ProofConv ProofConv2 ProofConv5
  ProofAuto ProofAuto2.
Open Scope Z_scope.

(** ** The status of the operation does not matter *)
Definition quietly (op : hval -> hval -> hval -> M (status * hval)) (a b o : hval) : M (status * hval) :=
  let* (_, r) := op a b o in ret (SUCCESS, r).
Lemma bind_same {A B} (m : M A) (k k' : A -> M B) E s :
  (forall a s', k a E s' = k' a E s') -> bind m k E s = bind m k' E s.
Proof. intros H. unfold bind. destruct (m E s); [apply H|done|done|done]. Qed.
Lemma quietly_bind {B} op a b o (k : hval -> M B) E s :
  (let* (_, r) := op a b o in k r) E s = (let* (_, r) := quietly op a b o in k r) E s.
Proof. unfold quietly, bind, ret. by destruct (op a b o E s) as [[x r] s'| | |]. Qed.
Lemma library_quiet op x1 x2 E s : library_run op x1 x2 E s = library_run (quietly op) x1 x2 E s.
Proof.
  unfold library_run. apply bind_same. intros d1 s1. apply bind_same. intros d2 s2. apply bind_same. intros v s3.
  apply bind_same. intros [st1 a1] s4. apply bind_same. intros [st2 a2] s5.
  apply (quietly_bind op a1 a2 HUndef (fun ar => let* (_, r) := aitisa_resolve ar in ret (outcome_of r))).
Qed.
Lemma itself_quiet op x1 x2 E s : user_run (itself op) x1 x2 E s = user_run (itself (quietly op)) x1 x2 E s.
Proof.
  unfold user_run. apply bind_same. intros u1 s1. apply bind_same. intros u2 s2.
  cbn [itself u_op u_resolve]. unfold bind at 1 3. 
  rewrite (quietly_bind op u1 u2 HUndef ret). reflexivity.
Qed.
Lemma case_quiet {X} (U : user X) op x1 x2 dev t same E s :
  auto_case op U x1 x2 dev t same E s = auto_case (quietly op) U x1 x2 dev t same E s.
Proof. unfold auto_case, bind. by rewrite library_quiet. Qed.
Lemma case_quiet_itself op x1 x2 dev t same E s :
  auto_case op (itself op) x1 x2 dev t same E s = auto_case (quietly op) (itself (quietly op)) x1 x2 dev t same E s.
Proof.
  unfold auto_case, bind. rewrite library_quiet. destruct (library_run (quietly op) x1 x2 E s); [|done..].
  by rewrite itself_quiet.
Qed.

(** ** Convolution computes the same on every device *)
Lemma on_valid d T : valid T -> valid (on d T). Proof. done. Qed.
Lemma conv_terms_on d T F ss ps ls nc b c x : conv_terms (on d T) (on d F) ss ps ls nc b c x = conv_terms T F ss ps ls nc b c x.
Proof. done. Qed.
Lemma conv_computes E T F T3 nb nc oc fc h w kh kw ss ps ls g d :
  alloc_all E -> hooks_ok E -> a_type T = F32 -> a_type F = F32 ->
  a_dims T = [nb; nc; h; w] -> a_dims F = [oc; fc; kh; kw] -> nc <= fc -> 0 < nc ->
  win_ok [h; w] [kh; kw] ss ps ls ->
  a_type T3 = F32 -> a_dims T3 = nb :: oc :: win_outs [h; w] [kh; kw] ss ps ls -> valid T3 ->
  (forall b c x, in_box (a_dims T3) (b :: c :: x) ->
     mac_all F32 (zero_val F32) (conv_terms T F ss ps ls nc b c x) = Some (at_ T3 (b :: c :: x))) ->
  computes E (quietly (conv_op ss ps ls g)) (on d T) (on d F) (on d T3).
Proof.
  intros HA HH HtT HtF HdT HdF Hnc Hnc0 Hok Ht3 Hd3 Hv3 Hval s p1 p2 o Hwf H1 H2.
  assert (makes_saying (conv_status E) (aitisa_conv (HPtr p1) (HPtr p2) ss ps ls g o) E s (on d T3)) as (s' & q & Hr & Hc).
  { eapply (fit_conv_rule p1 p2 (on d T) (on d F) nb nc oc fc [h; w] [kh; kw]); try done. cbn. lia. }
  exists s', q. split; [|exact Hc]. unfold quietly, conv_op.
  erewrite bind_done.
  2:{ rewrite (conv2d_conv p1 (on d T)) by done. cbn [a_dims on]. rewrite HdT. rewrite decide_True by done. exact Hr. }
  reflexivity.
Qed.

(** The correlation of initialised operands exists. *)
Lemma conv_choose T F nb nc oc fc h w kh kw ss ps ls d :
  a_type T = F32 -> a_type F = F32 ->
  a_dims T = [nb; nc; h; w] -> a_dims F = [oc; fc; kh; kw] -> nc <= fc -> 0 < nc ->
  win_ok [h; w] [kh; kw] ss ps ls -> fits (tsz F32) (nb :: oc :: win_outs [h; w] [kh; kw] ss ps ls) ->
  valid T -> valid F -> init T -> init F ->
  exists T3, a_type T3 = F32 /\ a_dev T3 = d /\ a_dims T3 = nb :: oc :: win_outs [h; w] [kh; kw] ss ps ls /\ valid T3 /\ init T3 /\
    (forall b c x, in_box (a_dims T3) (b :: c :: x) ->
       mac_all F32 (zero_val F32) (conv_terms T F ss ps ls nc b c x) = Some (at_ T3 (b :: c :: x))).
Proof.
  intros HtT HtF HdT HdF Hnc Hnc0 Hok Hfit HvT HvF HiT HiF. unfold init in *. rewrite HtT in HiT. rewrite HtF in HiF.
  assert (forall b c x, 0 <= b < nb -> 0 <= c < oc -> exists w,
     mac_all F32 (zero_val F32) (conv_terms T F ss ps ls nc b c x) = Some w /\ val_ok F32 w) as Hex.
  { intros b c x Hb Hc. apply mac_all_ok; [unfold mac_total; set_solver|apply zero_val_ok|].
    eapply conv_terms_forall; try done. by eapply win_ks_pos. }
  set (os := win_outs [h; w] [kh; kw] ss ps ls) in *.
  destruct (tab_choose F32 d (nb :: oc :: os)
    (fun x => mac_all F32 (zero_val F32)
      (conv_terms T F ss ps ls nc (default 0 (x !! 0%nat)) (default 0 (x !! 1%nat)) (drop 2 x))) Hfit)
    as (T3 & Hv & Ht & Hdv & Hds & H3).
  { intros x Hx. inversion Hx as [|? b ? y Hb Hy]; subst. inversion Hy as [|? c ? z Hc Hz]; subst.
    cbn. destruct (Hex b c z Hb Hc) as (v & Hw & _). eauto. }
  assert (forall b c x, in_box (a_dims T3) (b :: c :: x) ->
     mac_all F32 (zero_val F32) (conv_terms T F ss ps ls nc b c x) = Some (at_ T3 (b :: c :: x))) as Hval.
  { intros b c x Hx. rewrite Hds in Hx. exact (H3 _ Hx). }
  exists T3. split_and!; [done..| |done].
  rewrite <-(tab_at T3 Hv), Ht, Hds. apply Forall_forall. intros v Hin.
  unfold tab in Hin. apply elem_of_list_fmap in Hin as (k & -> & Hk). apply elem_of_seq in Hk.
  assert (in_box (nb :: oc :: os) (unravel (nb :: oc :: os) (Z.of_nat k))) as Hb.
  { apply unravel_in_box. apply prodZ_pos_inv; [apply Hfit|lia]. }
  destruct (unravel (nb :: oc :: os) (Z.of_nat k)) as [|b [|c x]] eqn:Hu; [inversion Hb|inversion Hb as [|? ? ? ? ? Hb']; inversion Hb'|].
  rewrite Hds in Hval. specialize (Hval b c x Hb).
  inversion Hb as [|? ? ? ? Hb0 Hy]; subst. inversion Hy as [|? ? ? ? Hc0 Hz]; subst.
  destruct (Hex b c x Hb0 Hc0) as (v & Hw & Hok'). congruence.
Qed.

Section sample.
Context {E : env} {s : st} {x1 x2 : operand} {T F T3 : atensor} {nb nc oc fc h w kh kw g : Z} {ss ps ls : list Z}.
Context (Hwf : wf s) (HA : alloc_all E) (HH : hooks_ok E)
  (H1 : supplied (heap s) x1 T) (H2 : supplied (heap s) x2 F)
  (HtT : a_type T = F32) (HtF : a_type F = F32)
  (HdT : a_dims T = [nb; nc; h; w]) (HdF : a_dims F = [oc; fc; kh; kw]) (Hnc : nc <= fc) (Hnc0 : 0 < nc)
  (Hok : win_ok [h; w] [kh; kw] ss ps ls)
  (Ht3 : a_type T3 = F32) (Hd3 : a_dims T3 = nb :: oc :: win_outs [h; w] [kh; kw] ss ps ls) (Hv3 : valid T3)
  (Hval : forall b c x, in_box (a_dims T3) (b :: c :: x) ->
     mac_all F32 (zero_val F32) (conv_terms T F ss ps ls nc b c x) = Some (at_ T3 (b :: c :: x))).

Lemma conv_sample {X} (U : user X) V : valid V ->
  (forall s1, keeps s s1 -> exists r s2, user_run U x1 x2 E s1 = Done r s2 /\ shows (heap s2) r V /\ keeps s1 s2) ->
  exists b s', conv_case U x1 x2 ss ps ls g E s = Done b s' /\ (b = true <-> agree 1 (same_float F32) T3 V).
Proof using All.
  intros HvV HU. unfold conv_case. rewrite case_quiet.
  destruct (sample_verdict U E s (quietly (conv_op ss ps ls g)) x1 x2 (Some 1) (same_float F32) T F (on (Dev 0 0) T3) V)
    as (b & s' & Hr & Hb); try done.
  { eapply conv_computes; done. }
  exists b, s'. cbn [on a_type] in Hr. rewrite Ht3 in Hr. split; [exact Hr|]. exact Hb.
Qed.

Lemma conv_self d : d = Dev 0 0 \/ d = Dev 1 0 -> x_device x1 = dev_type d -> x_device x2 = dev_type d -> init T3 ->
  exists b s', conv_case (itself (conv_op ss ps ls g)) x1 x2 ss ps ls g E s = Done b s' /\
    (b = true <-> dev_type d = 1 /\ Forall finite_val (a_vals T3)).
Proof using All.
  intros Hd D1 D2 Hi. unfold conv_case. rewrite case_quiet_itself.
  destruct (sample_verdict (itself (quietly (conv_op ss ps ls g))) E s (quietly (conv_op ss ps ls g)) x1 x2 (Some 1)
    (same_float F32) T F (on (Dev 0 0) T3) (on d T3)) as (b & s' & Hr & Hb); try done.
  { eapply conv_computes; done. }
  { intros s1 (K1 & K2 & K3).
    apply (itself_run_ok E s1 (quietly (conv_op ss ps ls g)) x1 x2 T F (on d T3) d); try done;
      [by eapply supplied_mono|by eapply supplied_mono|]. eapply conv_computes; done. }
  exists b, s'. cbn [on a_type] in Hr. rewrite Ht3 in Hr. split; [exact Hr|]. rewrite Hb. unfold agree.
  cbn [on a_type a_dims a_dev a_vals default from_option]. unfold init in Hi. rewrite Ht3 in Hi.
  assert (forall i v, a_vals T3 !! i = Some v -> same_float F32 v v = true <-> finite_val v) as Hs.
  { intros i v Hv. pose proof (Forall_lookup_1 _ _ _ _ Hi Hv) as Hv'.
    destruct (same_as_self F32 v Hv') as [S1 S2]. unfold same_as in S1, S2. cbn [is_float] in S1, S2. naive_solver. }
  split.
  - intros (_ & _ & Hd1 & H). split; [done|]. apply Forall_lookup_2. intros i v Hv. apply (Hs i v Hv).
    exact (Forall2_lookup_lr _ _ _ _ _ _ H Hv Hv).
  - intros [Hd1 H]. split_and!; try done. apply Forall2_same_length_lookup_2; [done|].
    intros i x y Hx Hy. rewrite Hx in Hy. injection Hy as <-. apply (Hs i x Hx). exact (Forall_lookup_1 _ _ _ _ H Hx).
Qed.
End sample.

Lemma conv_samples E s x1 x2 T F nb nc oc fc h w kh kw g ss ps ls :
  wf s -> alloc_all E -> hooks_ok E -> supplied (heap s) x1 T -> supplied (heap s) x2 F ->
  a_type T = F32 -> a_type F = F32 -> a_dims T = [nb; nc; h; w] -> a_dims F = [oc; fc; kh; kw] -> nc <= fc -> 0 < nc ->
  win_ok [h; w] [kh; kw] ss ps ls -> fits (tsz F32) (nb :: oc :: win_outs [h; w] [kh; kw] ss ps ls) -> init T -> init F ->
  exists T3, a_type T3 = F32 /\ a_dims T3 = nb :: oc :: win_outs [h; w] [kh; kw] ss ps ls /\ valid T3 /\
    (forall b c x, in_box (a_dims T3) (b :: c :: x) ->
       mac_all F32 (zero_val F32) (conv_terms T F ss ps ls nc b c x) = Some (at_ T3 (b :: c :: x))) /\
    (forall X (U : user X) V, valid V ->
       (forall s1, keeps s s1 -> exists r s2, user_run U x1 x2 E s1 = Done r s2 /\ shows (heap s2) r V /\ keeps s1 s2) ->
       exists b s', conv_case U x1 x2 ss ps ls g E s = Done b s' /\ (b = true <-> agree 1 (same_float F32) T3 V)) /\
    (forall d, d = Dev 0 0 \/ d = Dev 1 0 -> x_device x1 = dev_type d -> x_device x2 = dev_type d ->
       exists b s', conv_case (itself (conv_op ss ps ls g)) x1 x2 ss ps ls g E s = Done b s' /\
         (b = true <-> dev_type d = 1 /\ Forall finite_val (a_vals T3))).
Proof.
  intros Hwf HA HH H1 H2 HtT HtF HdT HdF Hnc Hnc0 Hok Hfit HiT HiF.
  assert (valid T) as HvT by apply H1. assert (valid F) as HvF by apply H2.
  destruct (conv_choose T F nb nc oc fc h w kh kw ss ps ls (Dev 0 0) HtT HtF HdT HdF Hnc Hnc0 Hok Hfit HvT HvF HiT HiF)
    as (T3 & Ht3 & _ & Hd3 & Hv3 & Hi3 & Hval).
  exists T3. split_and!; try done.
  - intros X U V HvV HU.
    exact (conv_sample Hwf HA HH H1 H2 HtT HtF HdT HdF Hnc Hnc0 Hok Ht3 Hd3 Hv3 Hval U V HvV HU).
  - intros d Hd D1 D2.
    exact (conv_self Hwf HA HH H1 H2 HtT HtF HdT HdF Hnc Hnc0 Hok Ht3 Hd3 Hv3 Hval d Hd D1 D2 Hi3).
Qed.

Lemma conv_cpu E s x1 x2 T F nb nc oc fc h w kh kw g ss ps ls :
  wf s -> alloc_all E -> hooks_ok E -> supplied (heap s) x1 T -> supplied (heap s) x2 F ->
  a_type T = F32 -> a_type F = F32 -> a_dims T = [nb; nc; h; w] -> a_dims F = [oc; fc; kh; kw] -> nc <= fc -> 0 < nc ->
  win_ok [h; w] [kh; kw] ss ps ls -> fits (tsz F32) (nb :: oc :: win_outs [h; w] [kh; kw] ss ps ls) -> init T -> init F ->
  x_device x1 = 0 -> x_device x2 = 0 ->
  exists s', conv_case (itself (conv_op ss ps ls g)) x1 x2 ss ps ls g E s = Done false s'.
Proof.
  intros Hwf HA HH H1 H2 HtT HtF HdT HdF Hnc Hnc0 Hok Hfit HiT HiF D1 D2.
  destruct (conv_samples E s x1 x2 T F nb nc oc fc h w kh kw g ss ps ls) as (T3 & _ & _ & _ & _ & _ & H); try done.
  destruct (H (Dev 0 0) (or_introl eq_refl) D1 D2) as (b & s' & Hr & Hb).
  exists s'. destruct b; [|exact Hr]. exfalso. destruct (proj1 Hb eq_refl) as [? _]. done.
Qed.
