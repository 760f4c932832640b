(** * ProofConvInput2: histories of convolution samples; copies and assignments *)
From stdpp Require Import gmap list.
From Coq Require Import ZArith Lia ZifyBool ZifyNat.
From Verif Require Import Base Mem Spec ModelSample SpecSample ModelConvInput SpecConvInput ProofSample ProofSample2 RefuteSample ProofConvInput.
Open Scope Z_scope.

Lemma csteps_safe E h : forall V s, cinv V s -> clegal_run E h V s ->
  (exists V' s', csteps h V E s = Done V' s' /\ cinv V' s') \/
  (csteps h V E s = Abort /\ ~ (alloc_all E /\ Forall croomy h)).
Proof.
  induction h as [|op h IH]; intros V s Hi Hl; [left; eauto|].
  destruct Hl as [Hl Hr]. pose proof (cgood_all op V E s Hi Hl) as Hg. unfold cgood in Hg.
  cbn [csteps]. unfold bind. destruct (cstep op V E s) as [V' s'| | |] eqn:Es; [|done| |done].
  - destruct Hg as [Hi' _]. destruct (IH V' s' Hi' (Hr _ _ eq_refl)) as [H|[H Hn]]; [by left|].
    right. split; [done|]. intros [HA Hf]. apply Hn. split; [done|]. by inversion Hf.
  - right. split; [done|]. intros [HA Hf]. apply Hg. split; [done|]. by inversion Hf.
Qed.
Lemma conv_safe E h s0 : wf s0 -> clegal_run E h ∅ s0 ->
  (exists V s, csteps h ∅ E s0 = Done V s) \/ (csteps h ∅ E s0 = Abort /\ ~ (alloc_all E /\ Forall croomy h)).
Proof.
  intros Hw Hl. destruct (csteps_safe E h ∅ s0 (cinv_empty s0 Hw) Hl) as [(V & s & H & _)|H]; [left; eauto|by right].
Qed.
Lemma creach_inv E V s : creach E V s -> cinv V s.
Proof.
  intros (h & s0 & Hw & Hl & Hs). destruct (csteps_safe E h ∅ s0 (cinv_empty s0 Hw) Hl) as [(V' & s' & H & Hi)|[H _]].
  - rewrite Hs in H. injection H as -> ->. done.
  - rewrite Hs in H. discriminate.
Qed.
Lemma conv_live E V s x o b : creach E V s -> V !! x = Some o -> HPtr b ∈ arrays o -> exists c, heap s !! b = Some (Blk ARR c).
Proof. intros Hr. apply (ci_arr _ _ (creach_inv _ _ _ Hr)). Qed.
Lemma conv_exact E op V s V' s' : creach E V s -> clegal op V (heap s) -> cstep op V E s = Done V' s' -> exact_step op V s V' s'.
Proof.
  intros Hr Hl Hs. pose proof (cgood_all op V E s (creach_inv _ _ _ Hr) Hl) as Hg. unfold cgood in Hg. rewrite Hs in Hg. apply Hg.
Qed.

(** A block that was not there at the start belongs to an object, if the program itself
    allocates nothing. *)
Lemma held_dec V b : Decision (held V b).
Proof.
  destruct (decide (map_Exists (fun _ o => has o b) V)) as [H|H].
  - left. destruct H as (x & o & Hx & Ho). by exists x, o.
  - right. intros (x & o & Hx & Ho). apply H. by exists x, o.
Qed.
Definition no_new (op : cop) : Prop := match op with CNewArr _ _ => False | _ => True end.
Lemma csteps_tight E h s0 : forall V s V' s', cinv V s -> clegal_run E h V s -> Forall no_new h ->
  (forall b, is_Some (heap s !! b) -> is_Some (heap s0 !! b) \/ held V b) ->
  csteps h V E s = Done V' s' ->
  forall b, is_Some (heap s' !! b) -> is_Some (heap s0 !! b) \/ held V' b.
Proof.
  induction h as [|op h IH]; intros V s V' s' Hi Hl Hf Hp Hs; [by injection Hs as <- <-|].
  destruct Hl as [Hl Hr]. pose proof (cgood_all op V E s Hi Hl) as Hg. unfold cgood in Hg.
  cbn [csteps] in Hs. unfold bind in Hs. destruct (cstep op V E s) as [V1 s1| | |] eqn:Es; [|done| |done]; [|done].
  destruct Hg as [Hi1 [X1 X2 X3 X4]]. apply Forall_cons in Hf as [Hno Hf].
  apply (IH V1 s1 V' s'); [done|by apply Hr|done| |done]. intros b Hb.
  destruct (heap s !! b) as [q|] eqn:Hq.
  - destruct (Hp b ltac:(eauto)) as [|Hh]; [by left|]. right. destruct (held_dec V1 b) as [|Hn]; [done|].
    rewrite (X2 b Hh Hn) in Hb. by destruct Hb.
  - right. destruct (X4 b Hq Hb) as [|(n & c & ->)]; done.
Qed.
Lemma conv_tight E h s0 V s : wf s0 -> clegal_run E h ∅ s0 -> Forall no_new h -> csteps h ∅ E s0 = Done V s ->
  forall b, is_Some (heap s !! b) -> is_Some (heap s0 !! b) \/ held V b.
Proof. intros Hw Hl Hf Hs. eapply csteps_tight; [by apply cinv_empty|done|done|by left|done]. Qed.

(** ** Copies *)
Lemma copy_destroys E V s x y o b : creach E V s -> V !! x = Some o -> V !! y = None -> HPtr b ∈ c_arrs o ->
  exists s', csteps [CCopy y x; CDestroy y] V E s = Done V s' /\ heap s' !! b = None /\
    cstep (CDestroy x) V E s' = UB UB_free.
Proof.
  intros Hr%creach_inv Hx Hy Hb. pose proof Hr as Hi.
  destruct (ci_cnt _ _ Hi x o Hx) as (c & Hc & Hh).
  pose proof (ci_dist _ _ Hi x o Hx) as Hd. pose proof (ci_undef _ _ Hi x o Hx) as Hu.
  unfold arrays in Hd, Hu. rewrite not_elem_of_app in Hu. destruct Hu as [_ Hu].
  assert (forall b, HPtr b ∈ c_arrs o -> exists c, heap s !! b = Some (Blk ARR c)) as Hl.
  { intros b' H. eapply (ci_arr _ _ Hi x o b' Hx). unfold arrays. apply elem_of_app. by right. }
  assert (HPtr c ∉ c_arrs o) as Hcn. { intros H. destruct (Hl c H) as (q & Hq). rewrite Hq in Hh. discriminate. }
  cbn [csteps cstep]. unfold cthe, bind. rewrite Hx. cbn [opt ret]. unfold conv_copy, ctor_copy, bind. rewrite Hc.
  rewrite (add_count_run c 1 1 E s Hh) by done. cbn [ret]. rewrite lookup_insert. cbn [opt ret].
  unfold conv_dtor, bind. cbn [c_arrs c_base].
  destruct (delete_all_run (c_arrs o) E (upd (<[c := Blk CNT (CInts [1 + 1])]> (heap s)) s) (distinct_app_r _ _ Hd) Hu) as (h1 & -> & N1 & K1).
  { intros b' H. cbn. rewrite lookup_insert_ne by (intros ->; done). by apply Hl. }
  unfold dtor. rewrite Hc. cbn [is_null]. unfold bind.
  rewrite (add_count_run c (1 + 1) (-1)); [|cbn; rewrite K1 by done; cbn; by rewrite lookup_insert|done].
  rewrite (get_count_run c (1 + 1 + -1)) by (cbn [heap upd]; by rewrite lookup_insert).
  change (1 + 1 + -1 =? 0) with false. cbv match. cbn [ret]. rewrite delete_insert by done.
  eexists. split; [reflexivity|]. cbn [heap upd].
  assert (forall b', HPtr b' ∈ c_arrs o -> <[c := Blk CNT (CInts [1 + 1 + -1])]> h1 !! b' = None) as Hdead.
  { intros b' H. rewrite lookup_insert_ne by (intros ->; done). by apply N1. }
  split; [by apply Hdead|].
  rewrite (delete_all_dead (c_arrs o) E _ b Hu Hb); [done|exact Hdead].
Qed.

(** ** Assignments *)
Lemma assign_never E V s x y V' s' : cstep (CAssign x y) V E s <> Done V' s'.
Proof.
  cbn [cstep]. unfold cthe, bind. destruct (V !! x) as [a|]; [|done]. destruct (V !! y) as [b|]; [|done]. cbn [opt ret].
  unfold conv_assign, bind. destruct (conv_assign_body _ a b E s); done.
Qed.
Definition old_kept (s s' : st) : Prop := wf s' /\ forall b c, heap s !! b = Some (Blk ARR c) -> heap s' !! b = Some (Blk ARR c).
Lemma new_arr_kept n c E s p s' : wf s -> new_arr n c E s = Done p s' ->
  p = HPtr (ctr s) /\ wf s' /\ ctr s' = S (ctr s) /\ (forall b x, heap s !! b = Some x -> heap s' !! b = Some x) /\
  heap s' !! ctr s = Some (Blk ARR c).
Proof.
  intros Hw H. destruct (new_arr_run n c E s) as [H'|[_ H']]; rewrite H' in H; [|done]. injection H as <- <-.
  split_and!; [done|by apply wf_after|done| |apply after_here]. intros b x Hb. by apply lookup_after.
Qed.
Lemma copy_params_kept d q n E s s' : copy_params (HPtr d) q n E s = Done tt s' -> wf s ->
  wf s' /\ ctr s' = ctr s /\ forall b, b <> d -> heap s' !! b = heap s !! b.
Proof.
  unfold copy_params. intros H Hw. destruct (n =? 0); [by injection H as <-|]. unfold bind in H.
  destruct (check _ _ E s) as [[] s1| | |] eqn:H1; try done. unfold check in H1. destruct (negb _); [|done]. injection H1 as <-.
  unfold get_ints, bind in H. destruct (deref q E s) as [x s1| | |] eqn:H1; try done.
  unfold deref in H1. destruct q as [|b|]; try done. destruct (heap s !! b) as [y|] eqn:Hb; [|done]. injection H1 as <- <-.
  destruct (b_content y) as [| |l| |]; try done. unfold check in H. cbn [ret] in H. destruct (n <=? Z.of_nat (length l)); [|done]. cbn [ret] in H.
  unfold set_content, bind, deref in H. destruct (heap s !! d) as [z|] eqn:Hd; [|done]. unfold put_block in H. injection H as <-.
  split_and!; [|done|].
  - intros b' [w Hw']. cbn in *. apply lookup_insert_Some in Hw' as [[<- _]|[_ Hw']]; apply Hw; eauto.
  - intros b' Hne. cbn. by rewrite lookup_insert_ne.
Qed.
Lemma copy_all_kept ds : forall qs n E s s', copy_all ds qs n E s = Done tt s' -> wf s ->
  forall b, Forall (fun p => exists d, p = HPtr d /\ b <> d) ds -> heap s' !! b = heap s !! b.
Proof.
  induction ds as [|p ds IH]; intros qs n E s s' H Hw b Hf; [by injection H as <-|].
  destruct qs as [|q qs]; [by injection H as <-|]. cbn [copy_all] in H. unfold bind in H.
  apply Forall_cons in Hf as [(d & -> & Hne) Hf].
  destruct (copy_params (HPtr d) q n E s) as [[] s1| | |] eqn:H1; try done.
  destruct (copy_params_kept _ _ _ _ _ _ H1 Hw) as (W1 & _ & K). rewrite (IH _ _ _ _ _ H W1 b Hf). by apply K.
Qed.
Lemma assign_leaves E V s x y o q o' s' b : creach E V s -> V !! x = Some o -> V !! y = Some q -> x <> y ->
  conv_assign_body false o q E s = Done o' s' -> HPtr b ∈ c_arrs o ->
  (exists c, heap s' !! b = Some (Blk ARR c)) /\ ~ held (<[x := o']> V) b.
Proof.
  intros Hi%creach_inv Hx Hy Hne Hrun Hb. pose proof (ci_wf _ _ Hi) as Hw.
  destruct (ci_cnt _ _ Hi x o Hx) as (c & Hc & Hh). destruct (ci_cnt _ _ Hi y q Hy) as (d & Hd & Hhd).
  assert (c <> d) as Hcd.
  { intros <-. apply Hne. eapply (ci_sep _ _ Hi x y o q c); [done..|by right|by right]. }
  pose proof (ci_dist _ _ Hi x o Hx) as Hdi. pose proof (ci_undef _ _ Hi x o Hx) as Hu.
  unfold arrays in Hdi, Hu. rewrite not_elem_of_app in Hu. destruct Hu as [Hu _].
  assert (forall b, HPtr b ∈ arrays o -> exists c, heap s !! b = Some (Blk ARR c)) as Hl by (intros b0 ?; by eapply (ci_arr _ _ Hi x o b0)).
  assert (HPtr b ∈ arrays o) as Hba by (unfold arrays; apply elem_of_app; by right).
  destruct (Hl b Hba) as (cb & Hcb).
  assert (HPtr b ∉ o_bufs (c_base o)) as Hbn by (intros H; by eapply (distinct_app_sep _ _ b Hdi)).
  unfold conv_assign_body, bind in Hrun. unfold assign in Hrun. rewrite Hc, Hd in Hrun. unfold bind in Hrun.
  rewrite (add_count_run c 1 (-1) E s Hh) in Hrun by done.
  rewrite (get_count_run c (1 + -1)) in Hrun by (cbn [heap upd]; by rewrite lookup_insert).
  change (1 + -1 =? 0) with true in Hrun. cbv match in Hrun.
  destruct (delete_all_run (o_bufs (c_base o)) E (upd (<[c := Blk CNT (CInts [1 + -1])]> (heap s)) s) (distinct_app_l _ _ Hdi) Hu)
    as (h1 & R1 & N1 & K1).
  { intros b' H. cbn. destruct (Hl b') as (z & Hz); [unfold arrays; apply elem_of_app; by left|]. exists z.
    rewrite lookup_insert_ne; [done|]. intros ->. rewrite Hz in Hh. discriminate. }
  rewrite R1 in Hrun.
  assert (HPtr d ∉ o_bufs (c_base o)) as Hdn.
  { intros H. destruct (Hl d) as (z & Hz); [unfold arrays; apply elem_of_app; by left|]. rewrite Hz in Hhd. discriminate. }
  rewrite (add_count_run d 1 1) in Hrun; [|cbn; rewrite K1 by done; cbn; by rewrite lookup_insert_ne|done]. cbn [ret] in Hrun.
  set (s1 := upd _ _) in Hrun.
  assert (wf s1) as W1.
  { intros b' [z Hz]. unfold s1 in *. cbn in *. apply Hw. apply lookup_insert_Some in Hz as [[<- _]|[_ Hz]]; [eauto|].
    destruct (decide (HPtr b' ∈ o_bufs (c_base o))) as [Hin|Hin]; [rewrite N1 in Hz by done; done|]. rewrite K1 in Hz by done.
    cbn in Hz. apply lookup_insert_Some in Hz as [[<- _]|[_ Hz]]; eauto. }
  assert (heap s1 !! b = Some (Blk ARR cb)) as Hb1.
  { unfold s1. cbn. rewrite lookup_insert_ne by (intros ->; rewrite Hcb in Hhd; discriminate). rewrite K1 by done. cbn.
    rewrite lookup_insert_ne; [done|]. intros ->. rewrite Hcb in Hh. discriminate. }
  assert (ctr s1 = ctr s) as Hct by done.
  destruct (_ <? 0); [done|].
  destruct (new_arr _ _ E s1) as [p1 s2| | |] eqn:A1; try done.
  destruct (new_arr _ _ E s2) as [p2 s3| | |] eqn:A2; try done.
  destruct (new_arr _ _ E s3) as [p3 s4| | |] eqn:A3; try done.
  destruct (new_arr_kept _ _ _ _ _ _ W1 A1) as (-> & W2 & C2 & K2 & _).
  destruct (new_arr_kept _ _ _ _ _ _ W2 A2) as (-> & W3 & C3 & K3 & _).
  destruct (new_arr_kept _ _ _ _ _ _ W3 A3) as (-> & W4 & C4 & K4 & _).
  assert (b < ctr s)%nat as Hlt by (apply Hw; eauto).
  destruct (copy_all _ _ _ E s4) as [[] s5| | |] eqn:A4; try done. cbn [ret] in Hrun. injection Hrun as <- <-.
  assert (heap s5 !! b = Some (Blk ARR cb)) as Hb5.
  { rewrite (copy_all_kept _ _ _ _ _ _ A4 W4 b); [by apply K4, K3, K2|].
    repeat (apply Forall_cons; split; [eexists; split; [reflexivity|lia]|]). by apply Forall_nil. }
  split; [eauto|]. intros (z & w & Hz & Hhas). apply lookup_insert_Some in Hz as [[<- <-]|[Hnz Hz]].
  - destruct Hhas as [Hin|Hin]; [|cbn in Hin; injection Hin as Hin; rewrite Hin, Hcb in Hhd; discriminate].
    unfold arrays in Hin. cbn in Hin. apply elem_of_app in Hin as [Hin|Hin].
    + apply Hne. eapply (ci_sep _ _ Hi x y o q b); [done..|by left|]. left. unfold arrays. apply elem_of_app. by left.
    + rewrite !elem_of_cons, elem_of_nil in Hin. destruct Hin as [[= H]|[[= H]|[[= H]|[]]]]; lia.
  - apply Hnz. eapply (ci_sep _ _ Hi x z o w b); [done..|by left|done].
Qed.
Lemma assign_groups self o q E s o' s' : conv_assign_body self o q E s = Done o' s' -> c_groups o' = c_groups o.
Proof.
  unfold conv_assign_body, bind. destruct (assign _ _ E s) as [b s1| | |]; try done. destruct (_ <? 0); [done|].
  destruct (new_arr _ _ E s1) as [p1 s2| | |]; try done. destruct (new_arr _ _ E s2) as [p2 s3| | |]; try done.
  destruct (new_arr _ _ E s3) as [p3 s4| | |]; try done. destruct (copy_all _ _ _ E s4) as [[] s5| | |]; try done.
  cbn. by intros [= <- _].
Qed.

(** ** Constructor arguments that do not fit *)
Lemma vec_base E s n1 v1 n2 v2 m d1 d2 : alloc_all E -> 0 <= 8 * n1 <= PTRDIFF_MAX -> 0 <= 8 * n2 <= PTRDIFF_MAX ->
  n1 <= Z.of_nat (length v1) -> n2 <= Z.of_nat (length v2) -> exists o s', ctor_vec2 n1 v1 n2 v2 m d1 d2 E s = Done o s'.
Proof.
  intros HA R1 R2 H1 H2. unfold ctor_vec2, bind.
  destruct (new_dims_run n1 v1 E s H1) as [(c1 & ->)|[H _]]; [|tauto].
  destruct (new_dims_run n2 v2 E (after_alloc ARR c1 s) H2) as [(c2 & ->)|[H _]]; [|tauto].
  destruct (new_count_run E (after_alloc ARR c2 (after_alloc ARR c1 s))) as [->|[H _]]; [|tauto]. cbn. eauto.
Qed.
Lemma vec_low_rank E V s x n1 v1 n2 v2 m d1 d2 st pa di g : alloc_all E -> 0 <= n1 < 2 -> 0 <= 8 * n2 <= PTRDIFF_MAX ->
  n1 <= Z.of_nat (length v1) -> n2 <= Z.of_nat (length v2) ->
  cstep (CVec x n1 v1 n2 v2 m d1 d2 st pa di g) V E s = Abort.
Proof.
  intros HA R1 R2 H1 H2. cbn [cstep]. unfold conv_vec, bind.
  destruct (vec_base E s n1 v1 n2 v2 (n1 :: m) d1 d2 HA) as (o & s' & ->); [unfold PTRDIFF_MAX; lia|done..|].
  rewrite vec_len by (unfold INT_MAX; lia). unfold new_params. by rewrite (proj2 (Z.ltb_lt (n1 - 2) 0)) by lia.
Qed.
Lemma vec_short E V s x n1 v1 n2 v2 m d1 d2 st pa di g : alloc_all E -> 2 <= n1 -> n1 - 2 <= INT_MAX -> 0 <= 8 * n2 <= PTRDIFF_MAX ->
  n1 <= Z.of_nat (length v1) -> n2 <= Z.of_nat (length v2) ->
  Z.of_nat (length st) < n1 - 2 \/ Z.of_nat (length pa) < n1 - 2 \/ Z.of_nat (length di) < n1 - 2 ->
  cstep (CVec x n1 v1 n2 v2 m d1 d2 st pa di g) V E s = UB UB_oob.
Proof.
  intros HA R1 Rm R2 H1 H2 Hs. cbn [cstep]. unfold conv_vec, bind.
  destruct (vec_base E s n1 v1 n2 v2 (n1 :: m) d1 d2 HA) as (o & s' & ->); [unfold PTRDIFF_MAX, INT_MAX in *; lia|done..|].
  rewrite vec_len by lia. unfold new_params. rewrite (proj2 (Z.ltb_ge (n1 - 2) 0)) by lia. unfold bind.
  assert (4 * (n1 - 2) <= PTRDIFF_MAX) as Hp by (unfold PTRDIFF_MAX, INT_MAX in *; lia).
  destruct (new_arr_run (4 * (n1 - 2)) (CInts (take (Z.to_nat (n1 - 2)) st)) E s') as [->|[H _]]; [|tauto].
  set (s1 := after_alloc _ _ _).
  destruct (new_arr_run (4 * (n1 - 2)) (CInts (take (Z.to_nat (n1 - 2)) pa)) E s1) as [->|[H _]]; [|tauto].
  set (s2 := after_alloc _ _ _).
  destruct (new_arr_run (4 * (n1 - 2)) (CInts (take (Z.to_nat (n1 - 2)) di)) E s2) as [->|[H _]]; [|tauto].
  unfold check. destruct (n1 - 2 <=? Z.of_nat (length st)) eqn:E1; [|done].
  destruct (n1 - 2 <=? Z.of_nat (length pa)) eqn:E2; [|done]. destruct (n1 - 2 <=? Z.of_nat (length di)) eqn:E3; [lia|done].
Qed.
