(** * ProofDot3: contraction of tensors *)
From stdpp Require Import gmap list.
From Coq Require Import ZArith Lia Floats.SpecFloat.
From Coq Require Import ZifyBool ZifyNat.
From Verif Require Import Base Mem Spec ModelCore ModelBasic ModelMath Logic ProofCore ProofCore2 ProofCore3 ProofIndex
  ProofKernel ProofKernel2 ProofBasic ProofSlice ProofFrame ProofMatmul ProofMatmul2 ProofMatmul3 ProofDot.
Open Scope Z_scope.
Ltac Zify.zify_post_hook ::= Z.div_mod_to_equations.

(** ** One line of a tensor, cut out by a slice *)
Definition line_size (b1 : list Z) (d : Z) (b2 : list Z) : list Z :=
  replicate (length b1) 0 ++ d :: replicate (length b2) 0.

Lemma replicate_line b1 (d : Z) (b2 : list Z) (x : Z) :
  replicate (length (b1 ++ d :: b2)) x = replicate (length b1) x ++ x :: replicate (length b2) x.
Proof. rewrite app_length. cbn [length]. by rewrite replicate_add. Qed.

Lemma cdiv_1 d : cdiv d 1 = d.
Proof. unfold cdiv. rewrite Z.div_1_r. lia. Qed.

Section line.
Context (b1 : list Z) (d : Z) (b2 c r : list Z).
Context (Hd : 0 < d <= INT_MAX) (Hb1 : Forall (fun d => 0 < d <= INT_MAX) b1)
  (Hb2 : Forall (fun d => 0 < d <= INT_MAX) b2) (Hc : in_box b1 c) (Hr : in_box b2 r).
Let ts := replicate (length (b1 ++ d :: b2)) 1.

Lemma rest_ok : slice_ok b2 r (replicate (length b2) 0) (replicate (length b2) 1).
Proof using Hb2 Hr.
  clear -Hb2 Hr. unfold in_box in Hr. induction Hr as [|e x b2 r Hx Hr' IH]; [done|].
  apply Forall_cons in Hb2 as [He Hb2]. cbn. split; [llia|by apply IH].
Qed.
Lemma line_ok : slice_ok (b1 ++ d :: b2) (c ++ 0 :: r) (line_size b1 d b2) ts.
Proof using All.
  subst ts. rewrite replicate_line. unfold line_size.
  pose proof rest_ok as H. clear Hb2 Hr.
  unfold in_box in Hc. induction Hc as [|e x b1 c Hx Hc' IH]; cbn.
  - split; [llia|]. done.
  - apply Forall_cons in Hb1 as [He Hb1]. split; [llia|by apply IH].
Qed.
Lemma rest_dims n : slice_dims (replicate n 0) (replicate n 1) = [].
Proof using Type. induction n; [done|]. by cbn. Qed.
Lemma line_dims : slice_dims (line_size b1 d b2) ts = [d].
Proof using Hd.
  subst ts. rewrite replicate_line. unfold line_size.
  clear -Hd. induction b1 as [|e b1' IH]; cbn; [|done].
  replace (d =? 0) with false by lia. by rewrite cdiv_1, rest_dims.
Qed.
Lemma rest_src : slice_src r (replicate (length b2) 0) (replicate (length b2) 1) [] = r.
Proof using Hr.
  clear -Hr. unfold in_box in Hr. induction Hr as [|e x b2' r' Hx Hr' IH]; [done|]. cbn. by rewrite IH.
Qed.
Lemma line_src q : slice_src (c ++ 0 :: r) (line_size b1 d b2) ts [q] = c ++ q :: r.
Proof using Hd Hc Hr.
  subst ts. rewrite replicate_line. unfold line_size. pose proof rest_src as H.
  clear -Hd Hc H. unfold in_box in Hc. induction Hc as [|e x b1' c' Hx Hc' IH]; cbn.
  - replace (d =? 0) with false by lia. rewrite H. by rewrite Z.mul_1_l.
  - by rewrite IH.
Qed.
End line.

(** The line of [T] through [c], [r]. *)
Definition line (T : atensor) (b1 : list Z) (d : Z) (b2 c r : list Z) : atensor :=
  AT (a_type T) (a_dev T) [d]
     (tab [d] (fun e => at_ T (slice_src (c ++ 0 :: r) (line_size b1 d b2)
                                 (replicate (length (b1 ++ d :: b2)) 1) e))).

Lemma in_box_1 d q : 0 <= q < d -> in_box [d] [q].
Proof. intros H. by constructor. Qed.

Lemma line_at T b1 d b2 c r q : 0 < d <= INT_MAX -> in_box b1 c -> in_box b2 r -> 0 <= q < d ->
  at_ (line T b1 d b2 c r) [q] = at_ T (c ++ q :: r).
Proof.
  intros Hd Hc Hr Hq. unfold line. rewrite at_tab by (by apply in_box_1). by rewrite line_src.
Qed.

Lemma line_rule p T b1 d b2 c r o E s :
  wf s -> alloc_all E -> hooks_ok E -> holds (heap s) p T -> a_dims T = b1 ++ d :: b2 ->
  Forall (fun d => 0 < d <= INT_MAX) (a_dims T) -> in_box b1 c -> in_box b2 r ->
  makes (aitisa_slice (HPtr p) (c ++ 0 :: r) (line_size b1 d b2)
          (replicate (length (b1 ++ d :: b2)) 1) o) E s (line T b1 d b2 c r).
Proof.
  intros Hwf HA HE HT D Hp Hc Hr. rewrite D in Hp.
  apply Forall_app in Hp as [Hp1 Hp]. apply Forall_cons in Hp as [Hd Hp2].
  pose proof (slice_rule p T (c ++ 0 :: r) (line_size b1 d b2) (replicate (length (b1 ++ d :: b2)) 1) o E s
    Hwf HA HE HT) as H.
  rewrite line_dims, D in H by done. apply H.
  - by destruct b1.
  - by apply line_ok.
  - rewrite prodZ_cons, prodZ_nil. lia.
Qed.

(** ** The index recorders *)
Lemma advance_prefix b d k E s : Forall (fun d => 0 < d <= INT_MAX) b ->
  dot_advance (length b) (-1) (b ++ [d]) (unravel b k ++ [0]) E s = Done (unravel b (k + 1) ++ [0]) s.
Proof.
  intros Hb. unfold dot_advance.
  apply (odometer (fun c => c ++ [0]) b); [by apply pos_of|].
  intros i e c x He Hc Hx. replace (Z.of_nat i =? -1) with false by lia.
  pose proof (Forall_lookup_1 _ _ _ _ Hb He) as He'. cbv beta in He'.
  pose proof (Forall2_lookup_lr _ _ _ _ _ _ Hc He Hx) as Hx'. cbv beta in Hx'.
  pose proof (in_box_length _ _ Hc) as Hl. assert (i < length b)%nat as Hi by (by eapply lookup_lt_Some).
  erewrite bind_done by (apply aget_nat; by apply lookup_app_l_Some).
  erewrite bind_done by (apply ck32_ok; llia).
  erewrite bind_done by (apply aget_nat; by apply lookup_app_l_Some).
  replace (e <=? x + 1) with (negb (x + 1 <? e)) by lia.
  destruct (x + 1 <? e); cbn [negb].
  - erewrite bind_done by (apply aset_nat; rewrite app_length; cbn; lia).
    by rewrite insert_app_l by lia.
  - erewrite bind_done by (apply aset_nat; rewrite app_length; cbn; lia).
    by rewrite insert_app_l by lia.
Qed.

(** The second operand: the axis before the last one stays at 0. *)
Definition hole (c : list Z) : list Z :=
  match last c with Some j => removelast c ++ [0; j] | None => [] end.
Lemma hole_snoc c j : hole (c ++ [j]) = c ++ [0; j].
Proof. unfold hole. by rewrite last_snoc, removelast_last. Qed.

Lemma advance_hole b d n k nd E s : Forall (fun d => 0 < d <= INT_MAX) b -> 0 < n <= INT_MAX ->
  nd = Z.of_nat (length b) ->
  dot_advance (length (b ++ [d; n])) nd (b ++ [d; n])
    (hole (unravel (b ++ [n]) k)) E s = Done (hole (unravel (b ++ [n]) (k + 1))) s.
Proof.
  intros Hb Hn ->. pose proof (pos_of _ Hb) as Hb'.
  assert (Forall (fun d => 0 < d) (b ++ [1; n])) as Hes.
  { apply Forall_app. split; [done|]. repeat constructor; lia. }
  assert (forall k, hole (unravel (b ++ [n]) k) = unravel (b ++ [1; n]) k) as Hu.
  { intros j. rewrite unravel_snoc by (done || lia). rewrite hole_snoc.
    change [1; n] with ([1] ++ [n]). rewrite app_assoc, unravel_snoc by (first [lia|apply Forall_app; split; [done|repeat constructor; lia]]).
    rewrite unravel_snoc by (done || lia). rewrite Z.div_1_r, Z.mod_1_r. by rewrite <-app_assoc. }
  rewrite !Hu. unfold dot_advance.
  replace (length (b ++ [d; n])) with (length (b ++ [1; n])) by (by rewrite !app_length).
  apply (odometer (fun c => c) (b ++ [1; n])); [done|].
  intros i e c x He Hc Hx.
  pose proof (Forall2_lookup_lr _ _ _ _ _ _ Hc He Hx) as Hx'. cbv beta in Hx'.
  pose proof (in_box_length _ _ Hc) as Hl. pose proof (lookup_lt_Some _ _ _ He) as Hi.
  destruct (decide (i = length b)) as [->|Hne].
  - rewrite Z.eqb_refl. rewrite list_lookup_middle in He by done. injection He as <-.
    assert (x = 0) as -> by lia. cbn [Z.ltb]. change (0 + 1 <? 1) with false.
    cbv beta match. rewrite (list_insert_id c (length b) 0 Hx). reflexivity.
  - replace (Z.of_nat i =? Z.of_nat (length b)) with false by lia.
    assert ((b ++ [d; n]) !! i = Some e) as He2.
    { destruct (decide (i < length b)%nat).
      - rewrite lookup_app_l in He |- * by done. done.
      - rewrite app_length in Hi. cbn in Hi. assert (i = length b + 1)%nat as -> by lia.
        rewrite lookup_app_r in He |- * by lia.
        replace (length b + 1 - length b)%nat with 1%nat in * by lia. done. }
    assert (0 < e <= INT_MAX) as He'.
    { destruct (decide (i < length b)%nat).
      - rewrite lookup_app_l in He by done. by apply (Forall_lookup_1 _ _ _ _ Hb He).
      - rewrite app_length in Hi. cbn in Hi. assert (i = length b + 1)%nat as -> by lia.
        rewrite lookup_app_r in He by lia.
        replace (length b + 1 - length b)%nat with 1%nat in * by lia. by injection He as <-. }
    erewrite bind_done by (by apply aget_nat).
    erewrite bind_done by (apply ck32_ok; llia).
    erewrite bind_done by (by apply aget_nat).
    replace (e <=? x + 1) with (negb (x + 1 <? e)) by lia.
    destruct (x + 1 <? e); cbn [negb]; (erewrite bind_done by (apply aset_nat; lia)); done.
Qed.

(** ** Storing one result *)
Section store.
Context {E : env} {tag lo : nat} {base : gmap nat block} {p pd pm ps px : nat}
  {t : tcode} {dev : device} {dims : list Z}.
Let TN s' vs := tnew tag lo base s' p pd pm ps px (dtype_of t) dev dims (cells t vs).
Context (HE : hooks_ok E).

Lemma tnew_wf s vs : TN s vs -> wf s.
Proof using Type.
  intros (_ & Hh & Hd & Hn & Hb) b [x Hx]. rewrite Hh in Hx.
  apply lookup_union_Some in Hx as [Hx|Hx]; [|  |done].
  - apply Hn. eauto.
  - apply Hb. eauto.
Qed.

Lemma store_result s0 s1 s2 vec V res devR w vs (v : nat) :
  TN s0 vs -> (v < length vs)%nat ->
  created E s0 s1 vec V -> created E s1 s2 res (AT t devR [1] [w]) ->
  exists rx s3 s4 s5,
    tensor_data (HPtr res) E s2 = Done (HPtr rx) s2 /\
    memcpy (HPtr px) (Z.of_nat v * Z.of_nat (tsz t)) (HPtr rx) 0 (Z.of_nat (tsz t)) E s2 = Done tt s3 /\
    aitisa_destroy (HPtr vec) E s3 = Done (SUCCESS, HNull) s4 /\
    aitisa_destroy (HPtr res) E s4 = Done (SUCCESS, HNull) s5 /\
    TN s5 (<[v := w]> vs) /\ rpos s5 = rpos s0.
Proof using HE.
  intros HT Hv HV HR.
  pose proof (created_holds _ _ _ _ _ _ HR) as HhR. open_holds HhR HvR HxR. cbn [a_type a_dev a_dims a_vals] in *.
  assert (heap s0 !! px = Some (Blk tag (CData (cells t vs)))) as Hpx0 by (by eapply tnew_px).
  pose proof (lookup_weaken _ _ _ _ Hpx0 (created_sub _ _ _ _ _ _ HV)) as Hpx1.
  pose proof (lookup_weaken _ _ _ _ Hpx1 (created_sub _ _ _ _ _ _ HR)) as Hpx2.
  set (B := Blk tag (CData (cells t (<[v := w]> vs)))).
  pose proof (created_upd _ _ _ _ _ px B _ _ HV Hpx0) as HV'.
  pose proof (created_upd _ _ _ _ _ px B _ _ HR Hpx1) as HR'.
  destruct (destroy_older _ _ _ _ _ _ _ _ HE HV' HR') as (s4 & Hd4 & Hc4 & Hct4).
  eexists x, (upd s2 px B), s4, _. split_and!.
  - by eapply tensor_data_ok.
  - erewrite (memcpy_elem px x E s2 tag _ t vs [] w) ; [by rewrite app_nil_r|exact HxR| |done|done|done].
    by rewrite app_nil_r.
  - exact Hd4.
  - by eapply destroy_created.
  - eapply tnew_ctr_mono; [by eapply tnew_upd|done|]. cbn. destruct Hc4 as (_ & n & _ & _ & _ & _ & Hc & _). exact Hc.
  - cbn. destruct Hc4 as (_ & n & _ & _ & _ & _ & _ & Hr). rewrite Hr. cbn. lia.
Qed.
End store.
