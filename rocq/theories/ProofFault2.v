(** * ProofFault2: matmul, dot, squeeze, and the summary over all careful operations *)
From stdpp Require Import gmap list.
From Coq Require Import ZArith Lia ZifyBool ZifyNat.
From Verif Require Import Base Mem Spec SpecHeap SpecFault ModelCore ModelBasic ModelMath ModelNN ProofHeap ProofFault.
Open Scope Z_scope.

Lemma flat_bind_na {A B} (m : M A) (k : A -> M B) Q E ok s : na m -> pure m ->
  (forall a, m (schedule E ok) s = Done a s -> flat (k a) Q E ok s) -> flat (bind m k) Q E ok s.
Proof.
  intros Hm Hp Hk. eapply (flat_bind _ _ (fun _ => False)); [by apply fl_na| |done].
  intros a s' Ha. pose proof (Hp _ _ _ _ Ha) as ->. by apply Hk.
Qed.
Lemma flat_matmul t1 t2 o E ok s : axes s t1 t2 (fun n1 n2 => n1 <= 2 /\ n2 <= 2) ->
  flat (aitisa_matmul t1 t2 o) (failed_with o) E ok s.
Proof.
  intros Hx. unfold aitisa_matmul.
  apply flat_bind_na; [nal|repeat pu1|]. intros d1 _. apply flat_bind_na; [nal|repeat pu1|]. intros d2 _.
  case_match; [apply fl_na; nal|].
  apply flat_bind_na; [nal|repeat pu1|]. intros n1 Hn1. apply flat_bind_na; [nal|repeat pu1|]. intros n2 Hn2.
  destruct (Hx _ _ _ _ _ Hn1 Hn2) as [H1 H2].
  repeat (case_match; [first [apply fl_vv|apply fl_mv|apply fl_mm|apply fl_vm|lia]|]). apply fl_na. nal.
Qed.
Lemma flat_dot t1 t2 o E ok s : axes s t1 t2 (fun n1 n2 => (n1 = 1 /\ n2 = 1) \/ (n1 = 2 /\ n2 = 2)) ->
  flat (aitisa_dot t1 t2 o) (failed_with o) E ok s.
Proof.
  intros Hx. unfold aitisa_dot.
  apply flat_bind_na; [nal|repeat pu1|]. intros d1 _. apply flat_bind_na; [nal|repeat pu1|]. intros d2 _.
  case_match; [apply fl_na; nal|].
  apply flat_bind_na; [nal|repeat pu1|]. intros c1 _. apply flat_bind_na; [nal|repeat pu1|]. intros c2 _.
  case_match; [apply fl_na; nal|].
  apply flat_bind_na; [nal|repeat pu1|]. intros n1 Hn1. apply flat_bind_na; [nal|repeat pu1|]. intros n2 Hn2.
  destruct (Hx _ _ _ _ _ Hn1 Hn2) as [[-> ->]|[-> ->]].
  - change ((1 =? 1) && (1 =? 1)) with true. apply fl_vvdot.
  - change ((2 =? 1) && (2 =? 1)) with false. change ((2 =? 2) && (2 =? 2)) with true. cbv match.
    apply flat_matmul. intros F m1 m2 s1 s2 G1 G2. specialize (Hx _ _ _ _ _ G1 G2). cbv beta in Hx. lia.
Qed.

(** squeeze: the scratch arrays are live when they are released. *)
Lemma scratch_live n E s p s' : wf s -> scratch n E s = Done p s' -> p <> HNull ->
  exists b c, p = HPtr b /\ heap s' !! b = Some (Blk (e_alloc E) c) /\ heap s ⊆ heap s' /\ wf s' /\ b = ctr s.
Proof.
  intros Hw. unfold scratch, raw_alloc, alloc_tag. case_match; intros [= <- <-] Hn; [|done].
  eexists _, _. cbn. rewrite lookup_insert.
  assert (heap s !! ctr s = None) as Hf.
  { apply eq_None_not_Some. intros Hs. apply Hw in Hs. lia. }
  split_and!; [done|done|by apply insert_subseteq| |done].
  intros b [x Hb]. cbn in *. apply lookup_insert_Some in Hb as [[<- _]|[_ Hb]]; [lia|]. enough (b < ctr s)%nat by lia. eauto.
Qed.
Lemma flat_squeeze t axis na_ o E ok s : wf s -> hooks_ok E -> flat (aitisa_squeeze t axis na_ o) (failed_with o) E ok s.
Proof.
  intros Hw Hh. unfold aitisa_squeeze.
  apply flat_bind_na; [nal|repeat pu1|]. intros dims _. apply flat_bind_na; [nal|repeat pu1|]. intros nd _.
  case_match; [apply fl_na; nal|]. apply flat_bind_na; [nal|repeat pu1|]. intros c _. destruct c as [u|r]; [|apply fl_na; nal].
  eapply flat_bind; [apply fl_scratch| |intros p1 s1 _ ->; by eexists _, _].
  intros p1 s1 H1. destruct (is_null p1) eqn:N1; [apply fl_na; nal|].
  eapply scratch_live in H1 as (b1 & c1 & -> & Hb1 & _ & Hw1 & Ec1); [|done|by intros ->].
  apply flat_bind_na; [nal|repeat pu1|]. intros proc _.
  apply flat_bind_na; [nal|repeat pu1|]. intros [proc' on] _.
  eapply flat_bind; [apply fl_scratch| |intros p2 s2 _ ->; by eexists _, _].
  intros p2 s2 H2. destruct (is_null p2) eqn:N2; [apply fl_na; nal|].
  eapply scratch_live in H2 as (b2 & c2 & -> & Hb2 & Hs2 & Hw2 & Ec2); [|done|by intros ->].
  apply flat_bind_na; [nal|repeat pu1|]. intros [od j] _. apply flat_bind_na; [nal|repeat pu1|]. intros od' _.
  eapply flat_bind; [apply fl_reshape| |].
  - intros [st h] s3 _. apply fl_na. nal.
  - intros [st h] s3 H3 Hf. injection Hf as -> ->.
    destruct (run_keeps (schedule E ok) s2 (OReshape t od' on) o _ _ Hw2 H3) as [Hk Hw3].
    assert (b1 <> b2) as Hne.
    { intros ->. assert (b2 < ctr s1)%nat; [by eapply Hw1|]. lia. }
    assert (heap s3 !! b1 = Some (Blk (e_alloc E) c1)) as L1.
    { eapply lookup_weaken; [|done]. eapply lookup_weaken; [|done]. done. }
    assert (heap s3 !! b2 = Some (Blk (e_alloc E) c2)) as L2 by (eapply lookup_weaken; done).
    eexists _, _. unfold bind, raw_dealloc, free_tag. rewrite L1. cbn [b_tag].
    unfold hooks_ok in Hh. rewrite bool_decide_true by done. cbn [heap].
    rewrite lookup_delete_ne by done. rewrite L2. cbn [b_tag]. rewrite bool_decide_true by done.
    cbn [ret]. split_and!; [done|done|cbn; lia].
Qed.

Lemma flat_reports x o E ok s (P : status * hval -> Prop) (out : hval -> Prop) :
  wf s -> flat (run_op x o) P E ok s -> (forall r, P r -> r.1 = ALLOC_FAILED /\ out r.2) ->
  reports (run_op x o) E ok s out.
Proof.
  intros Hw [[H1 H2]|(k & [a h] & s' & H1 & HP & H3 & H4)] Hout.
  - left. split; [done|]. intros r s' Hr. by apply H2 with r.
  - right. destruct (Hout _ HP) as [E1 E2]. cbn in E1, E2. subst a. destruct (run_keeps _ _ _ _ _ _ Hw H1) as [Hk Hw'].
    by exists k, h, s'.
Qed.
Theorem careful_reports x o E ok s : wf s -> careful x E s -> reports (run_op x o) E ok s (kept_output x o).
Proof.
  intros Hw Hc. assert (forall r, failed_with o r -> r.1 = ALLOC_FAILED /\ r.2 = o) as Hf by (by intros r ->).
  destruct x; cbn [careful] in Hc; try done; cbn [kept_output];
    (eapply flat_reports; [done| |]; cbn [run_op]);
    [apply fl_create| |apply fl_full| |apply fl_cast| |apply fl_reshape| |by apply flat_squeeze| |apply fl_sqrt|
     |by apply flat_matmul| |by apply flat_dot| |apply fl_relu| |apply fl_sigmoid| |apply fl_tanh| |apply fl_softmax|]; try done.
Qed.
