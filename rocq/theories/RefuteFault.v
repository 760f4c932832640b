(** * RefuteFault: operations that use a pointer they did not test *)
From stdpp Require Import gmap list.
From Coq Require Import ZArith Lia ZifyBool ZifyNat.
From Verif Require Import Base Mem Spec SpecNN SpecHeap SpecFault ModelCore ModelBasic ModelMath ModelNN Logic ProofCore ProofCore2
  ProofKernel ProofKernel2 ProofBasic ProofSqueeze ProofSlice ProofMath ProofHeap ProofPool ProofPool2 ProofDropout ProofFault RefuteMath2 ProofCore3.
Open Scope Z_scope.

(** ** Single requests *)
Lemma scratch_ok n E ok s : ok (ctr s) = true -> 0 <= n <= PTRDIFF_MAX ->
  scratch n (schedule E ok) s = Done (HPtr (ctr s)) (st_alloc s (Blk (e_alloc E) (CRaw n))).
Proof.
  intros H Hn. unfold scratch. destruct (raw_alloc_cases n CRaw (schedule E ok) s Hn) as [Ha|[_ Ha]]; [exact Ha|].
  exfalso. unfold raw_alloc, alloc_tag in Ha. cbn [schedule e_alloc_ok e_alloc] in Ha. rewrite H, andb_true_r in Ha.
  unfold to_size in Ha. rewrite Z.mod_small in Ha by llia. by replace (n <=? PTRDIFF_MAX) with true in Ha by lia.
Qed.
Lemma scratch_no n E ok s : ok (ctr s) = false -> scratch n (schedule E ok) s = Done HNull (st_fail s).
Proof.
  intros H. unfold scratch, raw_alloc, alloc_tag. cbn [schedule e_alloc_ok]. by rewrite H, andb_false_r.
Qed.
Lemma malloc_no n c E ok s : ok (ctr s) = false -> libc_malloc n c (schedule E ok) s = Done HNull (st_fail s).
Proof. intros H. unfold libc_malloc, alloc_tag. cbn [schedule e_alloc_ok]. by rewrite H, andb_false_r. Qed.
Lemma alloc_any {B} g n c (k : hval -> M B) E s u :
  wf s -> (forall p s', heap s ⊆ heap s' -> wf s' -> k p E s' = UB u) -> bind (alloc_tag g n c) k E s = UB u.
Proof.
  intros Hw H. unfold bind, alloc_tag. destruct (_ && _).
  - apply H; [apply (st_alloc_sub s _ Hw)|by apply (wf_alloc s)].
  - apply (H HNull (st_fail s)); [done|by apply wf_fail].
Qed.
Lemma scratch_any {B} n (k : hval -> M B) E s u :
  wf s -> (forall p s', heap s ⊆ heap s' -> wf s' -> k p E s' = UB u) -> bind (scratch n) k E s = UB u.
Proof. intros Hw H. unfold scratch, raw_alloc. exact (alloc_any (e_alloc E) (to_size n) CRaw k E s u Hw H). Qed.
Lemma touch_null {B} (k : unit -> M B) E s : bind (touch HNull) k E s = UB UB_null.
Proof. done. Qed.
Lemma for64_ub {S} lo hi (body : Z -> S -> M S) x E s u :
  lo < hi -> body lo x E s = UB u -> for64 lo hi body x E s = UB u.
Proof.
  intros H Hb. unfold for64. destruct (Z.to_nat (hi - lo)) as [|n] eqn:En; [lia|]. cbn [iter]. by apply bind_ub.
Qed.

(** ** Convolution *)
Lemma conv_refused p pf T F ss ps ls g o E ok s :
  wf s -> holds (heap s) p T -> holds (heap s) pf F -> a_type T = F32 -> refuses_nth ok s 0 ->
  aitisa_conv (HPtr p) (HPtr pf) ss ps ls g o (schedule E ok) s = UB UB_null.
Proof.
  intros Hw (_ & b & tg & ex & Hv & Hx) (_ & b2 & tg2 & ex2 & Hv2 & Hx2) Ht [_ Hno].
  rewrite Nat.add_0_r in Hno. unfold aitisa_conv.
  erewrite bind_done by (by eapply tensor_dtype_ok). rewrite Ht. cbn [dtype_of d_code]. rewrite Z.eqb_refl.
  apply bind_ub. unfold aitisa_conv_float.
  erewrite bind_done by (by eapply tensor_ndim_ok).
  erewrite bind_done by (by eapply tensor_dims_ok).
  erewrite bind_done by (by eapply tensor_dims_ok).
  erewrite bind_done by (by apply scratch_no).
  assert (wf (st_fail s)) as W by (by apply wf_fail). revert W. generalize (st_fail s). intros s0 W.
  do 7 (apply scratch_any; [assumption|]; intros ? ? _ ?). apply touch_null.
Qed.

(** ** Pooling *)
Lemma pooling_refused m p T nb nc sd ks ss ps ls o E ok s :
  wf s -> holds (heap s) p T -> a_dims T = nb :: nc :: sd -> (1 <= length sd <= 3)%nat -> win_ok sd ks ss ps ls ->
  refuses_nth ok s 0 -> aitisa_pooling (HPtr p) m ks ss ps ls o (schedule E ok) s = UB UB_null.
Proof.
  intros Hw (_ & b & tg & ex & Hv & Hx) Hd Hr Hok [_ Hno].
  rewrite Nat.add_0_r in Hno. rewrite Hd in Hv. unfold aitisa_pooling.
  erewrite bind_done by (by eapply tensor_ndim_ok).
  replace ((2 <? Z.of_nat (length (nb :: nc :: sd))) && (Z.of_nat (length (nb :: nc :: sd)) <? 6)) with true
    by (cbn [length]; lia).
  unfold pooling_double.
  erewrite bind_done by (by eapply tensor_ndim_ok).
  erewrite bind_done by (by eapply tensor_dims_ok).
  erewrite bind_done by (by apply scratch_no).
  assert (wf (st_fail s)) as W by (by apply wf_fail). revert W. generalize (st_fail s). intros s0 W.
  do 5 (apply scratch_any; [assumption|]; intros ? ? _ ?).
  erewrite bind_done by (eapply pool_check_ok; [exact Hok|cbn [length]; lia]). apply touch_null.
Qed.

(** ** Batched matrix products *)
Lemma matmul_tv_refused p1 p2 T1 T2 batch m k o E ok s :
  wf s -> holds (heap s) p1 T1 -> holds (heap s) p2 T2 ->
  dev_type (a_dev T1) = 0 -> dev_type (a_dev T2) = 0 -> batch <> [] ->
  a_dims T1 = batch ++ [m; k] -> a_dims T2 = [k] -> refuses_nth ok s 0 ->
  aitisa_matmul (HPtr p1) (HPtr p2) o (schedule E ok) s = UB UB_null.
Proof.
  intros Hw (_ & b & tg & ex & Hv & Hx) (_ & b2 & tg2 & ex2 & Hv2 & Hx2) C1 C2 Hb D1 D2 [_ Hno].
  rewrite Nat.add_0_r in Hno. unfold aitisa_matmul.
  erewrite bind_done by (by eapply tensor_device_ok).
  erewrite bind_done by (by eapply tensor_device_ok).
  unfold not_cpu. rewrite C1, C2. cbn [DEVICE_CPU negb orb Z.eqb].
  erewrite bind_done by (by eapply tensor_ndim_ok).
  erewrite bind_done by (by eapply tensor_ndim_ok).
  assert (exists n, length (a_dims T1) = S n + 2 /\ length batch = S n)%nat as (n & L1 & Lb).
  { rewrite D1, app_length. destruct batch as [|x batch]; [done|]. exists (length batch). cbn. lia. }
  rewrite L1. rewrite D2 in *. cbn [length]. change (Z.of_nat 1) with 1.
  replace (Z.of_nat (S n + 2) =? 1) with false by lia. replace (Z.of_nat (S n + 2) =? 2) with false by lia.
  replace (3 <=? Z.of_nat (S n + 2)) with true by lia. change (1 =? 1) with true.
  change (1 =? 2) with false. cbn [andb]. unfold matmul_tv.
  erewrite bind_done.
  2:{ eapply tensor_dim_ok; [exact Hv|lia|]. rewrite D1. rewrite lookup_app_r by lia.
      replace (Z.to_nat (Z.of_nat (S n + 2) - 2) - length batch)%nat with 0%nat by lia. done. }
  erewrite bind_done.
  2:{ eapply tensor_dim_ok; [exact Hv|lia|]. rewrite D1. rewrite lookup_app_r by lia.
      replace (Z.to_nat (Z.of_nat (S n + 2) - 1) - length batch)%nat with 1%nat by lia. done. }
  erewrite bind_done by (by eapply tensor_dim_ok).
  rewrite Z.eqb_refl. cbn [negb]. cbv zeta.
  erewrite bind_done by (by apply scratch_no).
  apply bind_ub. apply for64_ub; [lia|].
  destruct (lookup_lt_is_Some_2 (a_dims T1) 0) as [x Hx0]; [lia|].
  erewrite bind_done by (by eapply tensor_dim_ok). apply touch_null.
Qed.
Lemma matmul_vt_refused p1 p2 T1 T2 batch k n o E ok s :
  wf s -> holds (heap s) p1 T1 -> holds (heap s) p2 T2 ->
  dev_type (a_dev T1) = 0 -> dev_type (a_dev T2) = 0 -> batch <> [] ->
  a_dims T1 = [k] -> a_dims T2 = batch ++ [k; n] -> refuses_nth ok s 0 ->
  aitisa_matmul (HPtr p1) (HPtr p2) o (schedule E ok) s = UB UB_null.
Proof.
  intros Hw (_ & b & tg & ex & Hv & Hx) (_ & b2 & tg2 & ex2 & Hv2 & Hx2) C1 C2 Hb D1 D2 [_ Hno].
  rewrite Nat.add_0_r in Hno. unfold aitisa_matmul.
  erewrite bind_done by (by eapply tensor_device_ok).
  erewrite bind_done by (by eapply tensor_device_ok).
  unfold not_cpu. rewrite C1, C2. cbn [DEVICE_CPU negb orb Z.eqb].
  erewrite bind_done by (by eapply tensor_ndim_ok).
  erewrite bind_done by (by eapply tensor_ndim_ok).
  assert (exists j, length (a_dims T2) = S j + 2 /\ length batch = S j)%nat as (j & L2 & Lb).
  { rewrite D2, app_length. destruct batch as [|x batch]; [done|]. exists (length batch). cbn. lia. }
  rewrite L2. rewrite D1 in *. cbn [length]. change (Z.of_nat 1) with 1.
  replace (Z.of_nat (S j + 2) =? 1) with false by lia. replace (Z.of_nat (S j + 2) =? 2) with false by lia.
  replace (3 <=? Z.of_nat (S j + 2)) with true by lia. change (1 =? 1) with true.
  change (1 =? 2) with false. change (3 <=? 1) with false. cbn [andb].
  unfold matmul_vt. cbv zeta.
  erewrite bind_done by (by eapply tensor_dim_ok).
  erewrite bind_done.
  2:{ eapply tensor_dim_ok; [exact Hv2|lia|]. rewrite D2. rewrite lookup_app_r by lia.
      replace (Z.to_nat (Z.of_nat (S j + 2) - 2) - length batch)%nat with 0%nat by lia. done. }
  erewrite bind_done.
  2:{ eapply tensor_dim_ok; [exact Hv2|lia|]. rewrite D2. rewrite lookup_app_r by lia.
      replace (Z.to_nat (Z.of_nat (S j + 2) - 1) - length batch)%nat with 1%nat by lia. done. }
  rewrite Z.eqb_refl. cbn [negb].
  erewrite bind_done by (by apply scratch_no).
  apply bind_ub. apply for64_ub; [lia|].
  destruct (lookup_lt_is_Some_2 (a_dims T2) 0) as [x Hx0]; [lia|].
  erewrite bind_done by (by eapply tensor_dim_ok). apply touch_null.
Qed.

(** ** Slices *)
Lemma collect_null (temp pre l : list Z) E s :
  temp = pre ++ l -> Z.of_nat (length temp) <= INT_MAX -> filter (fun d => 0 < d) l <> [] ->
  iter (length l) (Z.of_nat (length pre)) (fun i s => let* s' := (fun i '(out_dims, last) =>
        let* e := aget temp i in
        if 0 <? e then
          let* out_dims := aset out_dims last (Some e) in
          ret (out_dims, last + 1)
        else ret (out_dims, last)) i s in check (i <? INT_MAX) UB_overflow ;;; ret s') ([] : list (option Z), 0) E s
  = UB UB_oob.
Proof.
  intros -> Hl. revert pre Hl. induction l as [|x l IH]; intros pre Hl Hne; [done|].
  cbn [length iter].
  assert (aget (pre ++ x :: l) (Z.of_nat (length pre)) E s = Done x s) as Hg.
  { apply aget_nat. rewrite lookup_app_r by lia. by rewrite Nat.sub_diag. }
  destruct (Z.ltb_spec 0 x) as [Hx|Hx].
  - apply bind_ub. apply bind_ub. erewrite bind_done by exact Hg.
    replace (0 <? x) with true by lia. done.
  - erewrite bind_done.
    2:{ erewrite bind_done.
        2:{ erewrite bind_done by exact Hg. replace (0 <? x) with false by lia. done. }
        rewrite app_length in Hl. cbn [length] in Hl.
        replace (Z.of_nat (length pre) <? INT_MAX) with true by lia. done. }
    rewrite filter_cons_False in Hne by lia.
    specialize (IH (pre ++ [x])). rewrite <-app_assoc in IH. cbn [app] in IH.
    replace (Z.of_nat (length pre) + 1) with (Z.of_nat (length (pre ++ [x]))) by (rewrite app_length; cbn; lia).
    by apply IH.
Qed.
Lemma slice_refused_at p T bs ss ts o E ok s :
  wf s -> holds (heap s) p T -> slice_ok (a_dims T) bs ss ts -> slice_dims ss ts <> [] ->
  refuses_nth ok s 1 -> aitisa_slice (HPtr p) bs ss ts o (schedule E ok) s = UB UB_oob.
Proof.
  intros Hw (HvT & b & tg & ex & Hv & Hx) Hok Hne [Hy Hno]. unfold aitisa_slice.
  pose proof (fits_len _ _ (valid_fits _ HvT)) as Hlen.
  erewrite bind_done by (by eapply slice_check_ok). rewrite bool_decide_eq_true_2 by done. cbn [negb].
  apply bind_ub. unfold slice_create_output.
  erewrite bind_done by (by eapply tensor_ndim_ok).
  erewrite bind_done by (apply scratch_ok; [apply Hy; lia|llia]). cbn [is_null].
  erewrite bind_done by (by eapply slice_ext_loop). cbv beta match.
  erewrite bind_done by (apply scratch_no; cbn [st_alloc ctr]; by rewrite <-Nat.add_1_r).
  apply bind_ub. cbn [arr].
  rewrite (slice_dims_filter _ _ _ _ Hok) in Hne.
  assert (length (slice_ext ss ts) = length (a_dims T)) as Hl.
  { unfold slice_ext. rewrite zip_with_length. pose proof (slice_ok_len _ _ _ _ Hok). lia. }
  unfold for32. rewrite Z.sub_0_r, Nat2Z.id, <-Hl.
  apply (collect_null (slice_ext ss ts) [] (slice_ext ss ts)); [done|lia|done].
Qed.

(** ** Copies *)
Lemma refuses_next ok s n x : refuses_nth ok s (S n) -> refuses_nth ok (st_alloc s x) n.
Proof.
  intros [Hy Hn]. split; cbn [st_alloc ctr].
  - intros k Hk. apply Hy. lia.
  - by replace (S (ctr s) + n)%nat with (ctr s + S n)%nat by lia.
Qed.
Lemma duplicate_refused p T o E ok s :
  wf s -> holds (heap s) p T -> a_dims T <> [] -> Forall (fun d => 0 < d <= INT_MAX) (a_dims T) ->
  refuses_nth ok s 4 -> aitisa_duplicate (HPtr p) o (schedule E ok) s = UB UB_oob.
Proof.
  intros Hwf HT Hne Hd Hr. unfold aitisa_duplicate.
  pose proof HT as (HvT & bx & tg & ex & Hv & Hx).
  pose proof (fits_len _ _ (valid_fits _ HvT)) as Hlen.
  assert (to_int <$> a_dims T = a_dims T) as Hsz.
  { clear -Hd. induction Hd as [|d ds Hd H IH]; [done|]. cbn [fmap list_fmap].
    change (list_fmap Z Z to_int ds) with (to_int <$> ds). rewrite IH, to_int_id by llia. done. }
  erewrite bind_done by (by eapply tensor_dims_ok).
  erewrite bind_done by (by eapply tensor_ndim_ok). cbv zeta. rewrite to_int_id by llia.
  set (x1 := Blk (e_alloc E) (CRaw (4 * Z.of_nat (length (a_dims T))))).
  erewrite bind_done by (apply scratch_ok; [apply Hr; lia|llia]). fold x1.
  apply (refuses_next _ _ _ x1) in Hr.
  assert (wf (st_alloc s x1) /\ heap s ⊆ heap (st_alloc s x1)) as [W1 S1] by (split; [by apply wf_alloc|by apply st_alloc_sub]).
  set (s1 := st_alloc s x1) in *.
  erewrite bind_done by (apply scratch_ok; [apply Hr; lia|llia]). fold x1.
  apply (refuses_next _ _ _ x1) in Hr.
  assert (wf (st_alloc s1 x1) /\ heap s1 ⊆ heap (st_alloc s1 x1)) as [W2 S2] by (split; [by apply wf_alloc|by apply st_alloc_sub]).
  set (s2 := st_alloc s1 x1) in *.
  erewrite bind_done by (apply scratch_ok; [apply Hr; lia|llia]). fold x1.
  apply (refuses_next _ _ _ x1) in Hr.
  assert (wf (st_alloc s2 x1) /\ heap s2 ⊆ heap (st_alloc s2 x1)) as [W3 S3] by (split; [by apply wf_alloc|by apply st_alloc_sub]).
  set (s3 := st_alloc s2 x1) in *. cbn [is_null orb].
  erewrite bind_done.
  2:{ rewrite (for64_pure (fun k => (zeros k, take k (to_int <$> a_dims T), ones k)) _ _ _ (length (a_dims T))).
    - reflexivity.
    - done.
    - lia.
    - intros k Hk. rewrite Z.add_0_l.
      destruct (lookup_lt_is_Some_2 (a_dims T) k) as [d Hdk]; [lia|].
      erewrite bind_done by (by apply aget_nat).
      assert ((to_int <$> a_dims T) !! k = Some (to_int d)) as Hsk by (by rewrite list_lookup_fmap, Hdk).
      rewrite (take_S_r _ _ _ Hsk).
      unfold zeros, ones. rewrite !replicate_S_end. done. }
  cbv beta match. rewrite Hsz, take_ge by lia. apply bind_ub.
  eapply slice_refused_at; [done| |by apply dup_ok|rewrite dup_dims by done; done|done].
  eapply holds_mono; [|exact HT]. by etrans; [|etrans].
Qed.
Lemma dropout_refused p T rate o E ok s :
  wf s -> holds (heap s) p T -> a_dims T <> [] -> Forall (fun d => 0 < d <= INT_MAX) (a_dims T) ->
  rate_ok rate ->
  refuses_nth ok s 4 -> aitisa_dropout (HPtr p) rate o (schedule E ok) s = UB UB_oob.
Proof.
  intros ? ? ? ? R ?. unfold aitisa_dropout. rewrite (rate_accepted _ R). apply bind_ub. by eapply duplicate_refused.
Qed.

(** ** Arithmetic *)
(** If a run with plenty of memory requests only what [ok] grants, the run with [ok]
    is the same. *)
Definition agrees {A} (m : M A) : Prop := forall E ok s a s', m (plenty E) s = Done a s' ->
  (ctr s <= ctr s')%nat /\ ((forall k, requested s s' k -> ok k = true) -> m (schedule E ok) s = Done a s').
Lemma ag_na {A} (m : M A) : na m -> agrees m.
Proof.
  intros H E ok s a s' Ha. destruct (H E ok s) as [H1 H2]. split; [|by rewrite H1].
  rewrite <-H1 in Ha. apply H2 in Ha. lia.
Qed.
Lemma ag_bind {A B} (m : M A) (k : A -> M B) : agrees m -> (forall a, agrees (k a)) -> agrees (bind m k).
Proof.
  intros Hm Hk E ok s b s'. unfold bind at 1. destruct (m (plenty E) s) as [a s1| | |] eqn:Ha; [|done..].
  intros Hb. destruct (Hm E ok s a s1 Ha) as [C1 D1]. destruct (Hk a E ok s1 b s' Hb) as [C2 D2].
  split; [lia|]. intros Hok. unfold bind. rewrite D1, D2; [done|..]; intros i [Hi1 Hi2]; apply Hok; split; lia.
Qed.
Lemma ag_alloc g n c : agrees (alloc_tag g n c).
Proof.
  intros E ok s a s'. unfold alloc_tag. cbn [plenty schedule e_alloc_ok]. rewrite andb_true_r. intros Ha.
  assert (ctr s' = S (ctr s)) as Hc by (by destruct (_ <=? _); injection Ha as <- <-).
  split; [lia|]. intros Hok. rewrite (Hok (ctr s)) by (split; lia). by rewrite andb_true_r.
Qed.
Lemma ag_raw_alloc n c : agrees (raw_alloc n c).
Proof. intros E. exact (ag_alloc (e_alloc E) (to_size n) c E). Qed.
Ltac ag1 :=
  lazymatch goal with
  | |- forall _, _ => intros ?
  | |- agrees (raw_alloc _ _) => apply ag_raw_alloc
  | |- agrees (match ?x with _ => _ end) => destruct x
  | |- agrees (bind _ _) => apply ag_bind
  | |- agrees ?m => first [solve [apply ag_na; nal] | let h := na_head m in unfold h; cbv beta]
  end.
Lemma ag_create dt dev dims n d len o : agrees (aitisa_create dt dev dims n d len o).
Proof. repeat ag1. Qed.

(** How much a creation requests. *)
Definition after {A} (m : M A) E s (Q : A -> st -> Prop) : Prop := forall a s', m E s = Done a s' -> Q a s'.
Lemma af_bind {A B} (m : M A) (k : A -> M B) E s Q Q' :
  after m E s Q -> (forall a s', Q a s' -> after (k a) E s' Q') -> after (bind m k) E s Q'.
Proof. unfold after, bind. destruct (m E s) as [a s'| | |] eqn:Ha; [|done..]. eauto. Qed.
Lemma af_na {A} (m : M A) E ok s : na m -> after m (schedule E ok) s (fun _ s' => ctr s' = ctr s).
Proof. intros H a s'. apply H. Qed.
Lemma af_raw_alloc n c E s : after (raw_alloc n c) E s (fun _ s' => ctr s' = S (ctr s)).
Proof. intros a s'. unfold raw_alloc, alloc_tag. destruct (_ && _); by intros [= <- <-]. Qed.
Definition requests (dims : list Z) : nat := match dims with [] => 3 | _ => 5 end.
Lemma create_requests dt dev dims o E h s s' :
  aitisa_create dt dev dims (Z.of_nat (length dims)) HNull 0 o (plenty E) s = Done (SUCCESS, h) s' ->
  ctr s' = (ctr s + requests dims)%nat.
Proof.
  enough (after (aitisa_create dt dev dims (Z.of_nat (length dims)) HNull 0 o) (plenty E) s
    (fun r s' => r.1 = SUCCESS -> ctr s' = (ctr s + requests dims)%nat)) as H by (intros Hc; by apply (H _ _ Hc)).
  unfold aitisa_create.
  eapply af_bind; [apply af_raw_alloc|]. intros t s1 C1. cbv beta in C1. destruct (is_null t); [by intros a s2 [= <- <-]|].
  eapply af_bind; [apply af_na; nal|]. intros size s2 C2. cbv beta in C2.
  eapply af_bind; [apply af_na; nal|]. intros bad s3 C3. cbv beta in C3. destruct bad; [by intros a s4 [= <- <-]|].
  eapply (af_bind _ _ _ _ (fun r s' => r.1.1 = SUCCESS -> ctr s' = (ctr s3 + (requests dims - 3))%nat)).
  { unfold create_shape.
    eapply (af_bind _ _ _ _ (fun _ s' => ctr s' = (ctr s3 + match dims with [] => 0 | _ => 1 end)%nat)).
    { destruct dims as [|d ds]; cbn [length].
      - rewrite Nat.add_0_r. change (Z.of_nat 0 =? 0) with true. apply af_na. nal.
      - replace (Z.of_nat (S (length ds)) =? 0) with false by lia. rewrite Nat.add_1_r. apply af_raw_alloc. }
    intros p s4 C4. cbv beta in C4. destruct (_ && _); [by intros a s5 [= <- <-]|].
    eapply af_bind; [apply af_na; nal|]. intros l s5 C5. cbv beta in C5.
    eapply af_bind; [apply af_na; nal|]. intros [] s6 C6. cbv beta in C6.
    eapply (af_bind _ _ _ _ (fun r s' => r.1 = SUCCESS -> ctr s' = (ctr s6 + match dims with [] => 0 | _ => 1 end)%nat)).
    { unfold create_default_layout. change (negb (LAYOUT_DENSE =? LAYOUT_DENSE)) with false. cbv match.
      eapply (af_bind _ _ _ _ (fun _ s' => ctr s' = (ctr s6 + match dims with [] => 0 | _ => 1 end)%nat)).
      { destruct dims as [|d ds]; cbn [length].
        - rewrite Nat.add_0_r. change (Z.of_nat 0 =? 0) with true. apply af_na. nal.
        - replace (Z.of_nat (S (length ds)) =? 0) with false by lia. rewrite Nat.add_1_r. apply af_raw_alloc. }
      intros p' s7 C7. cbv beta in C7. destruct (_ && _); [by intros a s8 [= <- <-]|].
      eapply af_bind; [apply af_na; nal|]. intros l' s8 C8. cbv beta in C8.
      eapply af_bind; [apply af_na; nal|]. intros [] s9 C9. cbv beta in C9.
      intros a s10 [= <- <-] _. congruence. }
    intros [st m] s7 C7. cbn [fst] in C7. intros a s8 [= <- <-]. cbn [fst]. intros E1. rewrite (C7 E1).
    destruct dims; cbn in *; lia. }
  intros [[st pd] pm] s4 C4. cbn [fst] in C4. destruct (bool_decide_reflect (st = SUCCESS)) as [->|Hn]; cbn [negb];
    [|by intros a s5 [= <- <-]].
  specialize (C4 eq_refl).
  eapply (af_bind _ _ _ _ (fun r s' => r.1 = SUCCESS -> ctr s' = (ctr s4 + 2)%nat)).
  { unfold create_storage. eapply af_bind; [apply af_raw_alloc|]. intros p s5 C5. cbv beta in C5.
    destruct (is_null p); [by intros a s6 [= <- <-]|].
    eapply (af_bind _ _ _ _ (fun _ s' => ctr s' = S (ctr s5))).
    { cbn [is_null]. eapply af_bind; [apply af_na; nal|]. intros n s6 C6. cbv beta in C6. rewrite <-C6. apply af_raw_alloc. }
    intros d s6 C6. cbv beta in C6. destruct (is_null d); [by intros a s7 [= <- <-]|].
    eapply af_bind; [apply af_na; nal|]. intros [] s7 C7. cbv beta in C7.
    intros a s8 [= <- <-] _. lia. }
  intros [st p] s5 C5. cbn [fst] in C5. destruct (bool_decide_reflect (st = SUCCESS)) as [->|Hn]; cbn [negb];
    [|by intros a s6 [= <- <-]].
  specialize (C5 eq_refl).
  eapply af_bind; [apply af_na; nal|]. intros [] s6 C6. cbv beta in C6.
  intros a s7 [= <- <-] _. destruct dims; cbn in *; lia.
Qed.

Lemma create_granted t dev dims o E ok s :
  wf s -> fits (tsz t) dims -> (forall k, (ctr s <= k < ctr s + requests dims)%nat -> ok k = true) ->
  exists s' p pd pm ps px,
    aitisa_create (dtype_of t) dev dims (Z.of_nat (length dims)) HNull 0 o (schedule E ok) s = Done (SUCCESS, HPtr p) s' /\
    tnew (e_alloc E) (ctr s) (heap s) s' p pd pm ps px (dtype_of t) dev dims
      (cells t (replicate (Z.to_nat (prodZ dims)) VU)) /\ ctr s' = (ctr s + requests dims)%nat.
Proof.
  intros Hw Hf Hok.
  assert (wp (aitisa_create (dtype_of t) dev dims (Z.of_nat (length dims)) HNull 0 o) (plenty E) s (fun r s' =>
    exists p pd pm ps px, r = (SUCCESS, HPtr p) /\ tnew (e_alloc E) (ctr s) (heap s) s' p pd pm ps px (dtype_of t) dev dims
      (cells t (replicate (Z.to_nat (prodZ dims)) VU)))) as H.
  { apply create_t_rule; [done|done| |].
    - intros s' p pd pm ps px H _. by exists p, pd, pm, ps, px.
    - intros s' H. by destruct H. }
  apply wp_elim in H as (r & s' & Hr & p & pd & pm & ps & px & -> & Ht).
  pose proof (create_requests _ _ _ _ _ _ _ _ Hr) as Hc.
  exists s', p, pd, pm, ps, px. split_and!; [|done|done].
  destruct (ag_create (dtype_of t) dev dims (Z.of_nat (length dims)) HNull 0 o E ok s _ _ Hr) as [_ H].
  apply H. intros k [H1 H2]. apply Hok. lia.
Qed.

Lemma binary_refused op p1 p2 T1 T2 o E ok s :
  wf s -> holds (heap s) p1 T1 -> holds (heap s) p2 T2 ->
  a_type T2 = a_type T1 -> a_dims T2 = a_dims T1 ->
  dev_type (a_dev T1) = 0 -> dev_type (a_dev T2) = 0 ->
  0 < prodZ (a_dims T1) -> refuses_nth ok s (requests (a_dims T1)) ->
  aitisa_binary_op op (HPtr p1) (HPtr p2) o (schedule E ok) s = UB UB_null.
Proof.
  intros Hwf H1 H2 Hty Hdi Hc1 Hc2 Hpos [Hy Hno]. unfold aitisa_binary_op.
  pose proof H1 as (HvT & bx & tg & ex & Hv & Hx).
  pose proof H2 as (HvT2 & bx2 & tg2 & ex2 & Hv2 & Hx2). rewrite Hty, Hdi in *.
  pose proof (valid_len _ HvT) as Hlen. pose proof (valid_fits _ HvT) as Hfit.
  erewrite bind_done by (by eapply tensor_device_ok).
  erewrite bind_done by (by eapply tensor_device_ok).
  unfold not_cpu. rewrite Hc1, Hc2. cbn [DEVICE_CPU negb orb Z.eqb].
  erewrite bind_done by (by eapply tensor_dtype_ok).
  erewrite bind_done by (by eapply tensor_dtype_ok).
  rewrite Z.eqb_refl. cbn [negb].
  erewrite bind_done by (by eapply tensor_ndim_ok).
  erewrite bind_done by (by eapply tensor_ndim_ok).
  rewrite Z.eqb_refl. cbn [negb].
  erewrite bind_done by (by eapply tensor_dims_ok).
  erewrite bind_done by (by eapply tensor_dims_ok).
  erewrite bind_done by (rewrite Nat2Z.id; apply dims_loop_same). cbv beta match.
  destruct (create_granted (a_type T1) (a_dev T1) (a_dims T1) o E ok s Hwf Hfit Hy) as (s1 & q & pd & pm & ps & px & Hr & Ht & Hc).
  erewrite bind_done by exact Hr. cbv beta match. rewrite bool_decide_eq_true_2 by done. cbn [negb].
  pose proof (tnew_base _ _ Ht) as Hsub.
  pose proof (view_mono _ _ _ _ _ _ _ _ Hsub Hv) as Hv1.
  pose proof (view_mono _ _ _ _ _ _ _ _ Hsub Hv2) as Hv21.
  erewrite bind_done by (by eapply tensor_size_ok).
  erewrite bind_done by (by eapply tensor_data_ok).
  erewrite bind_done by (by eapply tensor_data_ok).
  erewrite bind_done by (by eapply tensor_data_ok, tnew_view).
  erewrite bind_done by (apply malloc_no; by rewrite Hc).
  assert (wf s1) as W1 by (eapply tnew_wf; done).
  apply alloc_any; [by apply wf_fail|]. intros pb s2 S2 W2.
  apply alloc_any; [done|]. intros pc s3 S3 W3.
  apply bind_ub. apply for32_ub; [lia|].
  unfold type_table. cbn [dtype_of d_code d_size]. rewrite tc_of_code.
  erewrite bind_done by done.
  erewrite bind_done by (apply check_ok; lia).
  destruct (a_vals T1) as [|v vs] eqn:Hvs; [cbn in Hlen; lia|].
  erewrite bind_done.
  2:{ eapply (loadi_cells _ _ _ _ (v :: vs) _ 0%nat); [|reflexivity]. eapply lookup_weaken; [|exact S3]. eapply lookup_weaken; [|exact S2].
      eapply lookup_weaken; [exact Hx|done]. }
  apply touch_null.
Qed.

(** The product of two batches of matrices: dims_out, src/math/matmul.c:292 *)
Lemma broadcast_null b1 b2 m1 m2 n E s :
  bcast b1 b2 <> None -> (b1 <> [] \/ b2 <> []) -> 0 < n ->
  aitisa_broadcast_array (b1 ++ m1) (Z.of_nat (length b1)) (b2 ++ m2) (Z.of_nat (length b2)) [] n E s = UB UB_oob.
Proof.
  intros Hb Hne Hn. unfold aitisa_broadcast_array.
  assert (forall (l m : list Z) x, aget ((l ++ [x]) ++ m) (Z.of_nat (length (l ++ [x])) - 0 - 1) E s = Done x s) as Hg.
  { intros l m x. apply aget_Z; [rewrite app_length; cbn; lia|]. rewrite app_length. cbn [length].
    replace (Z.to_nat (Z.of_nat (length l + 1) - 0 - 1)) with (length l) by lia.
    rewrite <-app_assoc, lookup_app_r by lia. by rewrite Nat.sub_diag. }
  destruct b1 as [|a l1 _] using rev_ind.
  - destruct b2 as [|b l2 _] using rev_ind; [by destruct Hne|].
    replace (Z.min (Z.of_nat (length (@nil Z))) (Z.of_nat (length (l2 ++ [b])))) with 0 by (rewrite app_length; cbn; lia).
    cbn [Z.to_nat iter_ret length Z.of_nat]. erewrite bind_done by done. cbn [Z.max Z.compare].
    erewrite bind_done by done. apply bind_ub. apply for64_ub; [rewrite app_length; cbn; lia|].
    erewrite bind_done by apply Hg. unfold aset. apply bind_ub. cbn [length].
    by replace (_ && _) with false by lia.
  - destruct b2 as [|b l2 _] using rev_ind.
    + replace (Z.min (Z.of_nat (length (l1 ++ [a]))) (Z.of_nat (length (@nil Z)))) with 0 by (rewrite app_length; cbn; lia).
      cbn [Z.to_nat iter_ret]. erewrite bind_done by done. cbn [Z.max Z.compare].
      apply bind_ub. apply for64_ub; [rewrite app_length; cbn; lia|].
      erewrite bind_done by apply Hg. unfold aset. apply bind_ub. cbn [length].
      by replace (_ && _) with false by lia.
    + assert ((a =? 1) || (b =? 1) || (a =? b) = true) as Hc.
      { unfold bcast in Hb. rewrite !rev_app_distr in Hb. cbn in Hb. unfold bdim in Hb.
        repeat case_match; try done; lia. }
      apply bind_ub. destruct (Z.to_nat _) as [|k] eqn:Hk; [rewrite !app_length in Hk; cbn in Hk; lia|].
      cbn [iter_ret]. apply bind_ub.
      erewrite bind_done by apply Hg. erewrite bind_done by apply Hg. rewrite Hc.
      apply bind_ub. unfold aset. apply bind_ub. cbn [length].
      by replace (_ && _) with false by lia.
Qed.
Lemma matmul_tt_refused p1 p2 T1 T2 b1 b2 m k n o E ok s :
  wf s -> holds (heap s) p1 T1 -> holds (heap s) p2 T2 ->
  dev_type (a_dev T1) = 0 -> dev_type (a_dev T2) = 0 ->
  a_dims T1 = b1 ++ [m; k] -> a_dims T2 = b2 ++ [k; n] -> bcast b1 b2 <> None -> (b1 <> [] \/ b2 <> []) ->
  refuses_nth ok s 0 -> aitisa_matmul (HPtr p1) (HPtr p2) o (schedule E ok) s = UB UB_oob.
Proof.
  intros Hw (_ & b & tg & ex & Hv & Hx) (_ & b' & tg2 & ex2 & Hv2 & Hx2) C1 C2 D1 D2 Hb Hne [_ Hno].
  rewrite Nat.add_0_r in Hno. unfold aitisa_matmul.
  erewrite bind_done by (by eapply tensor_device_ok).
  erewrite bind_done by (by eapply tensor_device_ok).
  unfold not_cpu. rewrite C1, C2. cbn [DEVICE_CPU negb orb Z.eqb].
  erewrite bind_done by (by eapply tensor_ndim_ok).
  erewrite bind_done by (by eapply tensor_ndim_ok).
  assert (length (a_dims T1) = length b1 + 2)%nat as L1 by (rewrite D1, app_length; cbn; lia).
  assert (length (a_dims T2) = length b2 + 2)%nat as L2 by (rewrite D2, app_length; cbn; lia).
  assert (0 < Z.of_nat (length b1) + Z.of_nat (length b2)) as Hl.
  { destruct b1, b2; cbn; try lia. by destruct Hne. }
  rewrite L1, L2. set (n1 := Z.of_nat (length b1 + 2)) in *. set (n2 := Z.of_nat (length b2 + 2)) in *.
  replace (n1 =? 1) with false by lia. replace (n2 =? 1) with false by lia. cbn [andb].
  replace ((n1 =? 2) && (n2 =? 2)) with false by lia. rewrite !andb_false_r. cbn [andb].
  replace ((3 <=? n1) && (2 <=? n2) || (2 <=? n1) && (3 <=? n2)) with true by lia.
  unfold matmul_tt.
  erewrite bind_done.
  2:{ eapply tensor_dim_ok; [exact Hv|lia|]. rewrite D1, lookup_app_r by lia.
      replace (Z.to_nat (n1 - 2) - length b1)%nat with 0%nat by lia. done. }
  erewrite bind_done.
  2:{ eapply tensor_dim_ok; [exact Hv|lia|]. rewrite D1, lookup_app_r by lia.
      replace (Z.to_nat (n1 - 1) - length b1)%nat with 1%nat by lia. done. }
  erewrite bind_done.
  2:{ eapply tensor_dim_ok; [exact Hv2|lia|]. rewrite D2, lookup_app_r by lia.
      replace (Z.to_nat (n2 - 2) - length b2)%nat with 0%nat by lia. done. }
  erewrite bind_done.
  2:{ eapply tensor_dim_ok; [exact Hv2|lia|]. rewrite D2, lookup_app_r by lia.
      replace (Z.to_nat (n2 - 1) - length b2)%nat with 1%nat by lia. done. }
  rewrite Z.eqb_refl. cbn [negb]. cbv zeta.
  erewrite bind_done by (by apply scratch_no).
  erewrite bind_done by (by eapply tensor_dims_ok).
  erewrite bind_done by (by eapply tensor_dims_ok).
  apply bind_ub. cbn [arr]. rewrite D1, D2.
  replace (Z.max (n1 - 2) 0) with (Z.of_nat (length b1)) by lia.
  replace (Z.max (n2 - 2) 0) with (Z.of_nat (length b2)) by lia.
  apply broadcast_null; [done|done|lia].
Qed.

(** ** *output overwritten *)
Lemma softmax_clobbers p T axis o E ok s :
  holds (heap s) p T -> -1 <= axis < Z.of_nat (length (a_dims T)) -> refuses_nth ok s 0 ->
  exists s', aitisa_softmax (HPtr p) axis o (schedule E ok) s = Done (ALLOC_FAILED, HUndef) s'.
Proof.
  intros (_ & b & tg & ex & Hv & Hx) Ha [_ Hno]. rewrite Nat.add_0_r in Hno. unfold aitisa_softmax.
  erewrite bind_done by (by eapply tensor_ndim_ok).
  replace (_ || _) with false by lia. unfold softmax_create_output.
  eexists. erewrite bind_done.
  2:{ erewrite bind_done by (by eapply tensor_dims_ok).
      erewrite bind_done by (by eapply tensor_ndim_ok).
      erewrite bind_done by (by eapply tensor_dtype_ok).
      erewrite bind_done by (by eapply tensor_device_ok).
      by apply create_first_failure. }
  reflexivity.
Qed.
