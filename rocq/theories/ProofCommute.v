(** * ProofCommute: element-wise operations commute with slicing, reshaping and squeezing *)
From stdpp Require Import gmap list.
From Coq Require Import ZArith Lia Floats.SpecFloat.
From Coq Require Import ZifyBool ZifyNat.
From Verif Require Import Base Mem Spec SpecReal SpecNN SpecCommute ModelCore ModelBasic ModelMath ModelNN.
From Verif Require Import Logic ProofCore ProofCore2 ProofKernel ProofIndex ProofSqrt ProofSlice ProofMath ProofBasic2 ProofNN ProofLaws.
From Verif Require Import PropBasic PropBasic2 PropMath PropNN.
Ltac Zify.zify_post_hook ::= idtac.
Open Scope Z_scope.

Definition pick (ix : list nat) (l : list val) : list val := (fun i => default VU (l !! i)) <$> ix.
Lemma pick_all l : pick (seq 0 (length l)) l = l.
Proof.
  apply list_eq. intros i. unfold pick. rewrite list_lookup_fmap. destruct (decide (i < length l)%nat) as [H|H].
  - rewrite lookup_seq_lt by lia. cbn. destruct (lookup_lt_is_Some_2 l i H) as [x ->]. done.
  - rewrite lookup_seq_ge by lia. cbn. by rewrite lookup_ge_None_2 by lia.
Qed.
Lemma pick_Forall (P : val -> Prop) ix l : Forall (fun i => (i < length l)%nat) ix -> Forall P l -> Forall P (pick ix l).
Proof.
  intros Hx H. unfold pick. apply Forall_fmap. eapply Forall_impl; [exact Hx|]. intros i Hi. unfold compose.
  destruct (lookup_lt_is_Some_2 l i Hi) as [x Hl]. rewrite Hl. cbn. by eapply Forall_lookup_1.
Qed.
Lemma pick_Forall2 (R : val -> val -> Prop) ix l k : Forall (fun i => (i < length l)%nat) ix -> Forall2 R l k -> Forall2 R (pick ix l) (pick ix k).
Proof.
  intros Hx H. unfold pick. apply Forall2_fmap. induction Hx as [|i ix Hi Hx IH]; constructor; [|done].
  destruct (lookup_lt_is_Some_2 l i Hi) as [x Hl]. destruct (Forall2_lookup_l _ _ _ _ _ H Hl) as (y & Hk & Hr). by rewrite Hl, Hk.
Qed.
Lemma pick_Forall3 (R : val -> val -> val -> Prop) ix l k m : Forall (fun i => (i < length l)%nat) ix -> Forall3 R l k m ->
  Forall3 R (pick ix l) (pick ix k) (pick ix m).
Proof.
  intros Hx H. induction Hx as [|i ix Hi Hx IH]; [constructor|]. unfold pick. cbn [fmap list_fmap]. constructor; [|exact IH].
  destruct (lookup_lt_is_Some_2 l i Hi) as [x Hl]. destruct (Forall3_lookup_l _ _ _ _ _ _ H Hl) as (y & z & Hk & Hm & Hr).
  by rewrite Hl, Hk, Hm.
Qed.

Lemma src_box ds b n st c : slice_ok ds b n st -> in_box (slice_dims n st) c -> in_box ds (slice_src b n st c).
Proof.
  revert b n st c. induction ds as [|d ds IH]; intros [|b bs] [|n ns] [|t ts] c H Hc; try done; [constructor|].
  cbn [slice_ok slice_dims slice_src] in *. destruct H as [H1 H2]. destruct (Z.eqb_spec n 0) as [->|Hn].
  - apply in_box_cons. split; [lia|]. by apply IH.
  - destruct c as [|i c]; [by inversion Hc|]. apply in_box_cons in Hc as [Hi Hc]. apply in_box_cons. split; [|by apply IH].
    assert (t * i <= n - 1); [|lia]. unfold cdiv in Hi. destruct H1 as (? & ? & ? & ? & ? & ?).
    pose proof (Z.div_mod (n + t - 1) t ltac:(lia)) as Hd. pose proof (Z.mod_pos_bound (n + t - 1) t ltac:(lia)). nia.
Qed.

Lemma filter_fits sz dims : fits sz dims -> fits sz (filter (fun d => d <> 1) dims) /\ prodZ (filter (fun d => d <> 1) dims) = prodZ dims.
Proof.
  intros (H1 & H2 & H3).
  assert (forall l, prodZ (filter (fun d => d <> 1) l) = prodZ l /\
    prodZ (Z.max 1 <$> filter (fun d => d <> 1) l) = prodZ (Z.max 1 <$> l)) as HP.
  { induction l as [|d l [IH1 IH2]]; [done|]. rewrite filter_cons. destruct (decide (d <> 1)) as [Hd|Hd].
    - cbn. unfold prodZ in *. cbn. by rewrite IH1, IH2.
    - rewrite IH1, IH2. assert (d = 1) as -> by lia. unfold prodZ. cbn [fmap list_fmap foldr]. change (Z.max 1 1) with 1. by rewrite !Z.mul_1_l. }
  split; [|apply HP]. split_and!.
  - apply Forall_forall. intros x Hx. apply elem_of_list_filter in Hx as [_ Hx]. rewrite Forall_forall in H1. by apply H1.
  - pose proof (filter_length (fun d => d <> 1) dims). lia.
  - destruct (HP dims) as [_ ->]. done.
Qed.
(** Every selecting call picks elements at fixed positions. *)
Lemma selects_pick sz dims v : selects sz dims v -> fits sz dims -> exists d ix,
  Forall (fun i => (i < Z.to_nat (prodZ dims))%nat) ix /\ (prodZ dims <= INT_MAX -> prodZ d <= INT_MAX) /\ fits sz d /\
  forall ex A, a_dims A = dims -> (tsz (a_type A) <= sz)%nat -> gives1 ex v A (AT (a_type A) (a_dev A) d (pick ix (a_vals A))).
Proof.
  intros [b n st Hne Hok Hn|d Hf Hp|Hnz] Hfit.
  - exists (slice_dims n st), ((fun k => Z.to_nat (ravel dims (slice_src b n st (unravel (slice_dims n st) (Z.of_nat k))))) <$>
      seq 0 (Z.to_nat (prodZ (slice_dims n st)))).
    pose proof (slice_dims_pos _ _ _ _ Hok) as Hpos. split_and!; [|done|by eapply slice_dims_fits|].
    + apply Forall_fmap, Forall_forall. intros k _. unfold compose.
      pose proof (ravel_bound dims _ (src_box _ _ _ _ _ Hok (unravel_in_box _ (Z.of_nat k) Hpos))). lia.
    + intros ex A HA Hsz p o E s W HE HK _ H. subst dims. pose proof (C22_slice p A b n st o E s W HE HK H Hne Hok Hn) as K.
      unfold pick. rewrite <-list_fmap_compose. exact K.
  - exists d, (seq 0 (Z.to_nat (prodZ dims))). split_and!; [|lia|done|].
    + apply Forall_forall. intros i Hi. apply elem_of_seq in Hi. lia.
    + intros ex A HA Hsz p o E s W HE HK _ H. subst dims. pose proof (valid_len _ (holds_valid _ _ _ H)) as Hl.
      replace (Z.to_nat (prodZ (a_dims A))) with (length (a_vals A)) by lia. rewrite pick_all.
      apply (makes_enough E HE _ s o). apply C19_reshape; [done|done| |done]. destruct Hf as (? & ? & Hf). split_and!; [done|done|].
      pose proof (prodZ_max_pos d). nia.
  - exists (filter (fun d => d <> 1) dims), (seq 0 (Z.to_nat (prodZ dims))). destruct (filter_fits _ _ Hfit) as [F1 F2]. split_and!; [|lia|done|].
    + apply Forall_forall. intros i Hi. apply elem_of_seq in Hi. lia.
    + intros ex A HA Hsz p o E s W HE HK _ H. subst dims. pose proof (valid_len _ (holds_valid _ _ _ H)) as Hl.
      replace (Z.to_nat (prodZ (a_dims A))) with (length (a_vals A)) by lia. rewrite pick_all.
      apply (makes_enough E HE _ s o). by apply C20_squeeze_all.
Qed.

(** An element-wise operation *)
Lemma commute_map ex u v A (R : val -> val -> Prop) (P : val -> Prop) t' sz : valid A -> selects sz (a_dims A) v -> fits sz (a_dims A) ->
  (tsz (a_type A) <= sz)%nat -> (tsz t' <= sz)%nat -> Forall P (a_vals A) ->
  (forall C ws, a_type C = a_type A -> valid C -> fits sz (a_dims C) -> Forall P (a_vals C) -> Forall2 R (a_vals C) ws ->
     gives1 ex u C (AT t' (a_dev C) (a_dims C) ws)) ->
  (exists ws, Forall2 R (a_vals A) ws) -> commute1 ex u v A.
Proof.
  intros V HS Hfit Hz Hz' HP Hu [ws Hws]. destruct (selects_pick _ _ _ HS Hfit) as (d & ix & Hix & _ & Hd & Hv).
  pose proof (valid_len _ V) as Hl. rewrite <-Hl in Hix. rewrite Nat2Z.id in Hix.
  exists (AT t' (a_dev A) (a_dims A) ws), (AT (a_type A) (a_dev A) d (pick ix (a_vals A))), (AT t' (a_dev A) d (pick ix ws)).
  split_and!.
  - by apply Hu.
  - by apply Hv.
  - apply (Hv ex (AT t' (a_dev A) (a_dims A) ws)); done.
  - intros p o E s W HE HK Hex H. eapply (Hu (AT (a_type A) (a_dev A) d (pick ix (a_vals A)))); try done.
    + by eapply holds_valid.
    + by apply pick_Forall.
    + by apply pick_Forall2.
Qed.
(** ** The operations *)
Lemma relu_commutes ex v A : valid A -> init A -> selects (tsz (a_type A)) (a_dims A) v -> commute1 ex (fun p o => aitisa_relu p o) v A.
Proof.
  intros V I HS. pose proof (valid_fits _ V) as Hf.
  apply (commute_map ex _ v A (relu_spec (a_type A)) (val_ok (a_type A)) (a_type A) (tsz (a_type A))); try done.
  - intros C ws Ht VC _ IC Hws p o E s W HE HK _ H. rewrite <-Ht in *. apply (makes_enough E HE _ s o). by apply relu_makes.
  - destruct (relu_total A I) as (ws & Hws & _). by exists ws.
Qed.
Lemma sigmoid_commutes ex v A : valid A -> init A -> is_float (a_type A) = true -> selects (tsz (a_type A)) (a_dims A) v ->
  commute1 ex (fun p o => aitisa_sigmoid p o) v A.
Proof.
  intros V I F HS. pose proof (valid_fits _ V) as Hf.
  apply (commute_map ex _ v A (sigmoid_spec ex (a_type A)) (val_ok (a_type A)) (a_type A) (tsz (a_type A))); try done.
  - intros C ws Ht VC _ IC Hws p o E s W HE HK He H. rewrite <-Ht in *. subst ex. apply (makes_enough E HE _ s o). by apply C38_sigmoid.
  - destruct (C38_sigmoid_total A ex I F) as (ws & Hws & _). by exists ws.
Qed.
Lemma tanh_commutes ex v A : valid A -> init A -> is_float (a_type A) = true -> selects (tsz (a_type A)) (a_dims A) v ->
  commute1 ex (fun p o => aitisa_tanh p o) v A.
Proof.
  intros V I F HS. pose proof (valid_fits _ V) as Hf.
  apply (commute_map ex _ v A (tanh_spec ex (a_type A)) (val_ok (a_type A)) (a_type A) (tsz (a_type A))); try done.
  - intros C ws Ht VC _ IC Hws p o E s W HE HK He H. rewrite <-Ht in *. subst ex. apply (makes_enough E HE _ s o). by apply C38_tanh.
  - destruct (C38_tanh_total A ex I F) as (ws & Hws & _). by exists ws.
Qed.
Lemma sqrt_makes p T ws o E s : wf s -> alloc_all E -> holds (heap s) p T -> init T -> Forall (fun v => ~ negative v) (a_vals T) ->
  Forall2 (fun v w => sqrt_val (a_type T) v = Some w) (a_vals T) ws ->
  makes (aitisa_sqrt (HPtr p) o) E s (AT (a_type T) (a_dev T) (a_dims T) ws).
Proof.
  intros W HE H I Hn Hws. pose proof (sqrt_rule p T o E s W H I) as K.
  apply wp_elim in K as (r & s' & Hr & [(q & ws' & -> & _ & Hw & Hc)|[(q & -> & He & _)|(Hno & _)]]); [| |by destruct Hno].
  - exists s', q. split; [done|].
    rewrite (Forall2_fun (fun v w => sqrt_val (a_type T) v = Some w) (a_vals T) ws ws'); [|congruence|done|done].
    done.
  - exfalso. apply Exists_exists in He as (x & Hx & Hneg). rewrite Forall_forall in Hn. by destruct (Hn x Hx).
Qed.
Lemma sqrt_commutes ex v A : valid A -> init A -> Forall (fun v => ~ negative v) (a_vals A) -> selects (tsz (a_type A)) (a_dims A) v ->
  commute1 ex (fun p o => aitisa_sqrt p o) v A.
Proof.
  intros V I Hn HS. pose proof (valid_fits _ V) as Hf.
  apply (commute_map ex _ v A (fun v w => sqrt_val (a_type A) v = Some w) (fun v => val_ok (a_type A) v /\ ~ negative v)
    (a_type A) (tsz (a_type A))); try done.
  - apply Forall_and. done.
  - intros C ws Ht VC _ IC Hws p o E s W HE HK _ H. rewrite <-Ht in *. apply Forall_and in IC as [IC NC]. by apply sqrt_makes.
  - unfold init in I. induction (a_vals A) as [|x xs IH]; [exists []; constructor|].
    apply Forall_cons in I as [I1 I2]. apply Forall_cons in Hn as [N1 N2].
    destruct (IH I2 N2) as [ws Hws]. destruct (sqrt_val_some _ _ I1 N1) as [w Hw]. exists (w :: ws). by constructor.
Qed.
Lemma cast_commutes ex v A t2 : valid A -> t2 <> a_type A -> Forall (fun x => cast_val (a_type A) t2 x <> None) (a_vals A) ->
  fits (tsz t2) (a_dims A) -> selects (Nat.max (tsz (a_type A)) (tsz t2)) (a_dims A) v ->
  commute1 ex (fun p o => aitisa_cast p (dtype_of t2) o) v A.
Proof.
  intros V Hne Hd Hf2 HS. pose proof (valid_fits _ V) as Hf.
  assert (forall sz, (tsz t2 <= sz)%nat -> forall d, fits sz d -> fits (tsz t2) d) as Hmono.
  { intros sz Hz d (? & ? & H). split_and!; [done|done|]. pose proof (prodZ_max_pos d). nia. }
  apply (commute_map ex _ v A (fun x w => cast_val (a_type A) t2 x = Some w) (fun _ => True) t2 (Nat.max (tsz (a_type A)) (tsz t2))); try done.
  - destruct (Nat.max_spec (tsz (a_type A)) (tsz t2)) as [[_ ->]|[_ ->]]; done.
  - lia.
  - lia.
  - by apply Forall_true.
  - intros C ws Ht VC FC IC Hws p o E s W HE HK _ H. rewrite <-Ht in *. apply (makes_enough E HE _ s o). apply C16_cast; [done|done|done| |done].
    eapply Hmono; [|exact FC]. lia.
  - clear -Hd. induction Hd as [|x xs Hx Hd [ws IH]]; [exists []; constructor|].
    destruct (cast_val (a_type A) t2 x) as [w|] eqn:Hw; [|done]. exists (w :: ws). by constructor.
Qed.
Lemma binary_commutes ex op v A1 A2 : valid A1 -> valid A2 -> init A1 -> init A2 -> a_type A2 = a_type A1 -> a_dims A2 = a_dims A1 ->
  dev_type (a_dev A1) = 0 -> dev_type (a_dev A2) = 0 -> prodZ (a_dims A1) <= INT_MAX ->
  Forall2 (op_defined (a_type A1) op) (a_vals A1) (a_vals A2) -> selects (tsz (a_type A1)) (a_dims A1) v ->
  commute2 ex (aitisa_binary_op op) v A1 A2.
Proof.
  intros V1 V2 I1 I2 Ht Hdim D1 D2 Hn Hd HS. unfold init in I2. rewrite Ht in I2.
  destruct (bin_vals _ _ _ _ I1 I2 Hd) as [ws Hws]. pose proof (valid_fits _ V1) as Hf.
  destruct (selects_pick _ _ _ HS Hf) as (d & ix & Hix & Hnd & Hfd & Hv).
  pose proof (valid_len _ V1) as Hl. rewrite <-Hl, Nat2Z.id in Hix.
  exists (AT (a_type A1) (a_dev A1) (a_dims A1) ws), (AT (a_type A1) (a_dev A1) d (pick ix (a_vals A1))),
    (AT (a_type A2) (a_dev A2) d (pick ix (a_vals A2))), (AT (a_type A1) (a_dev A1) d (pick ix ws)).
  split_and!.
  - intros p1 p2 o E s W HE HK H1 H2. by eapply binary_rule.
  - by apply Hv.
  - apply Hv; [done|by rewrite Ht].
  - by apply (Hv ex (AT (a_type A1) (a_dev A1) (a_dims A1) ws)).
  - intros p1 p2 o E s W HE HK H1 H2.
    eapply (binary_rule op p1 p2 (AT (a_type A1) (a_dev A1) d (pick ix (a_vals A1))) (AT (a_type A2) (a_dev A2) d (pick ix (a_vals A2)))); try done.
    + by apply Hnd.
    + cbn [a_vals a_type]. by apply pick_Forall3.
Qed.
