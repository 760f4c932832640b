(** * ProofUnknown4: dot, matmul of matrices and batch norm on unsupported types (C52) *)
From stdpp Require Import gmap list.
From Coq Require Import ZArith Lia Floats.SpecFloat.
From Coq Require Import ZifyBool ZifyNat.
From Verif Require Import Base Mem Logic Spec SpecNN SpecUnknown ModelCore ModelBasic ModelMath ModelNN.
From Verif Require Import ProofCore ProofCore2 ProofBasic ProofFrame ProofNorm4 ProofUnknown ProofUnknown2.
Open Scope Z_scope.

(** ** dot with a scalar *)
Lemma dot_scalar_unknown p1 p2 dt1 dt2 dev1 dev2 dims1 dims2 order1 order2 px1 px2 o E s :
  view (heap s) p1 dt1 dev1 dims1 order1 px1 -> view (heap s) p2 dt2 dev2 dims2 order2 px2 ->
  dims1 = [] \/ dims2 = [] -> unknown dt1 ->
  aitisa_dot (HPtr p1) (HPtr p2) o E s = Done (NOT_SUPPORTED, o) s.
Proof.
  intros Hv1 Hv2 Hd Hu. unfold aitisa_dot.
  erewrite bind_done by (by eapply tensor_device_ok).
  erewrite bind_done by (by eapply tensor_device_ok).
  destruct (not_cpu dev1 dev2); [done|].
  erewrite bind_done by (by eapply tensor_dtype_ok).
  erewrite bind_done by (by eapply tensor_dtype_ok).
  destruct (Z.eqb_spec (d_code dt1) (d_code dt2)) as [Hc|Hc]; [|done]. cbn [negb].
  erewrite bind_done by (by eapply tensor_ndim_ok).
  erewrite bind_done by (by eapply tensor_ndim_ok).
  assert (length dims1 = 0%nat \/ length dims2 = 0%nat) as Hl by (destruct Hd as [->| ->]; auto).
  replace ((Z.of_nat (length dims1) =? 1) && (Z.of_nat (length dims2) =? 1)) with false by lia.
  replace ((Z.of_nat (length dims1) =? 2) && (Z.of_nat (length dims2) =? 2)) with false by lia.
  replace ((Z.of_nat (length dims1) =? 0) || (Z.of_nat (length dims2) =? 0)) with true by lia.
  unfold scalar_tensor_mul.
  erewrite bind_done by (by eapply tensor_ndim_ok).
  erewrite bind_done by (by eapply tensor_ndim_ok).
  erewrite bind_done by (by eapply tensor_dtype_ok).
  erewrite bind_done by (by eapply tensor_device_ok).
  assert (unknown dt2) as Hu2 by (unfold unknown in *; lia).
  destruct (Z.of_nat (length dims2) <? Z.of_nat (length dims1)).
  all: erewrite bind_done by (by eapply tensor_ndim_ok).
  all: erewrite bind_done by (by eapply tensor_dims_ok).
  all: unfold dot_get_value.
  all: erewrite bind_done; [|erewrite bind_done by (by eapply tensor_dtype_ok);
    unfold dispatch_all; rewrite unknown_none by done; reflexivity].
  all: done.
Qed.

(** ** matrices *)
Lemma matmul_mm_unknown p1 p2 dt dt2 dev dev2 m k n order1 order2 px1 px2 o E s :
  wf s -> alloc_all E -> view (heap s) p1 dt dev [m; k] order1 px1 -> view (heap s) p2 dt2 dev2 [k; n] order2 px2 ->
  dev_type dev = 0 -> dev_type dev2 = 0 -> sized dt [m; n] -> unknown dt ->
  aitisa_matmul (HPtr p1) (HPtr p2) o E s = UB UB_oob.
Proof.
  intros Hwf HE Hv1 Hv2 D1 D2 Hs Hu. unfold aitisa_matmul.
  erewrite bind_done by (by eapply tensor_device_ok).
  erewrite bind_done by (by eapply tensor_device_ok).
  unfold not_cpu. rewrite D1, D2. cbn [negb orb DEVICE_CPU Z.eqb].
  erewrite bind_done by (by eapply tensor_ndim_ok).
  erewrite bind_done by (by eapply tensor_ndim_ok).
  cbn [length]. change (Z.of_nat 1) with 1. try change (Z.of_nat 2) with 2. cbn [Z.eqb Pos.eqb andb]. cbv match. unfold matmul_mm.
  erewrite bind_done by (by eapply (tensor_dim_ok Hv1 0 m)).
  erewrite bind_done by (by eapply (tensor_dim_ok Hv1 1 k)).
  erewrite bind_done by (by eapply (tensor_dim_ok Hv2 0 k)).
  erewrite bind_done by (by eapply (tensor_dim_ok Hv2 1 n)).
  rewrite Z.eqb_refl. cbn [negb]. unfold zeros_like.
  apply bind_UB.
  erewrite bind_done by (by eapply tensor_dtype_ok).
  erewrite bind_done by (by eapply tensor_device_ok).
  apply (full_unknown dt dev [m; n]); done.
Qed.

Lemma dot_prefix p1 p2 dt dt2 dev dev2 dims1 dims2 order1 order2 px1 px2 o E s :
  view (heap s) p1 dt dev dims1 order1 px1 -> view (heap s) p2 dt2 dev2 dims2 order2 px2 ->
  dev_type dev = 0 -> dev_type dev2 = 0 -> d_code dt2 = d_code dt ->
  aitisa_dot (HPtr p1) (HPtr p2) o E s =
  (let nd1 := Z.of_nat (length dims1) in let nd2 := Z.of_nat (length dims2) in
   if (nd1 =? 1) && (nd2 =? 1) then vector_vector_dot (HPtr p1) (HPtr p2) o
   else if (nd1 =? 2) && (nd2 =? 2) then aitisa_matmul (HPtr p1) (HPtr p2) o
   else if (nd1 =? 0) || (nd2 =? 0) then scalar_tensor_mul (HPtr p1) (HPtr p2) o
   else if nd2 =? 1 then tensor_vector_dot (HPtr p1) (HPtr p2) o
   else if (2 <? nd1) && (2 <? nd2) then multidim_dot (HPtr p1) (HPtr p2) o
   else ret (INVALID_ARGUMENT, o)) E s.
Proof.
  intros Hv1 Hv2 D1 D2 Hc. unfold aitisa_dot.
  erewrite bind_done by (by eapply tensor_device_ok).
  erewrite bind_done by (by eapply tensor_device_ok).
  unfold not_cpu. rewrite D1, D2. cbn [negb orb DEVICE_CPU Z.eqb].
  erewrite bind_done by (by eapply tensor_dtype_ok).
  erewrite bind_done by (by eapply tensor_dtype_ok).
  rewrite Hc, Z.eqb_refl. cbn [negb].
  erewrite bind_done by (by eapply tensor_ndim_ok).
  erewrite bind_done by (by eapply tensor_ndim_ok). done.
Qed.

Lemma dot_unknown p1 p2 dt dt2 dev dev2 dims1 dims2 out order1 order2 px1 px2 o E s :
  wf s -> alloc_all E -> view (heap s) p1 dt dev dims1 order1 px1 -> view (heap s) p2 dt2 dev2 dims2 order2 px2 ->
  dev_type dev = 0 -> dev_type dev2 = 0 -> unknown dt -> d_code dt2 = d_code dt ->
  ((exists n, dims1 = [n] /\ dims2 = [n] /\ out = [1]) \/
   (exists m k n, dims1 = [m; k] /\ dims2 = [k; n] /\ out = [m; n])) -> sized dt out ->
  aitisa_dot (HPtr p1) (HPtr p2) o E s = UB UB_oob.
Proof.
  intros Hwf HE Hv1 Hv2 D1 D2 Hu Hc Hd Hs. erewrite dot_prefix by done.
  destruct Hd as [(n & -> & -> & ->)|(m & k & n & -> & -> & ->)].
  - cbn [length]. change (Z.of_nat 1) with 1. try change (Z.of_nat 2) with 2. cbn [Z.eqb Pos.eqb andb]. cbv zeta match. unfold vector_vector_dot.
    erewrite bind_done by (by eapply (tensor_dim_ok Hv1 0 n)).
    erewrite bind_done by (by eapply (tensor_dim_ok Hv2 0 n)).
    rewrite Z.eqb_refl. cbn [negb]. unfold zeros_like.
    apply bind_UB.
    erewrite bind_done by (by eapply tensor_dtype_ok).
    erewrite bind_done by (by eapply tensor_device_ok).
    apply (full_unknown dt dev [1]); done.
  - cbn [length]. change (Z.of_nat 1) with 1. try change (Z.of_nat 2) with 2. cbn [Z.eqb Pos.eqb andb]. cbv zeta match.
    eapply (matmul_mm_unknown p1 p2 dt dt2 dev dev2 m k n); done.
Qed.

(** ** batch normalisation *)
Lemma bn_check_view p pS pB pM pV dt dtS dtB dtM dtV dev devS devB devM devV dims ch oT oS oB oM oV px pxS pxB pxM pxV axis eps E s :
  view (heap s) p dt dev dims oT px -> view (heap s) pS dtS devS [ch] oS pxS -> view (heap s) pB dtB devB [ch] oB pxB ->
  view (heap s) pM dtM devM [ch] oM pxM -> view (heap s) pV dtV devV [ch] oV pxV ->
  (2 <= length dims <= 5)%nat -> axis = 1 \/ axis = Z.of_nat (length dims) - 1 -> dims !! Z.to_nat axis = Some ch ->
  d_code dtS = d_code dt -> d_code dtB = d_code dt -> d_code dtM = d_code dt -> d_code dtV = d_code dt ->
  SFltb eps fzero = false ->
  batch_norm_check (HPtr p) axis (HPtr pS) (HPtr pB) (HPtr pM) (HPtr pV) eps E s = Done SUCCESS s.
Proof.
  intros Vt VS VB VM VV Hr Hax Hch TS TB TM TV Heps. unfold batch_norm_check.
  erewrite bind_done by by eapply tensor_dtype_ok.
  erewrite bind_done by by eapply tensor_ndim_ok.
  replace ((Z.of_nat (length dims) <? 2) || (5 <? Z.of_nat (length dims))) with false by lia.
  replace (negb (axis =? 1) && negb (axis =? Z.of_nat (length dims) - 1)) with false by lia.
  erewrite bind_done by by eapply tensor_dtype_ok. rewrite TS, Z.eqb_refl. cbn [negb].
  erewrite bind_done by by eapply tensor_dtype_ok. rewrite TB, Z.eqb_refl. cbn [negb].
  erewrite bind_done by (eapply tensor_dim_ok; [exact Vt|lia|done]).
  erewrite bind_done by by eapply tensor_size_ok.
  erewrite bind_done by by eapply tensor_size_ok.
  assert (prodZ [ch] = ch) as -> by (rewrite prodZ_cons, prodZ_nil; lia).
  rewrite !Z.eqb_refl. cbn [negb orb].
  erewrite bind_done by by eapply tensor_ndim_ok.
  erewrite bind_done by by eapply tensor_ndim_ok.
  change (negb (Z.of_nat (length [ch]) =? 1)) with false. cbv match. cbn [orb].
  erewrite bind_done by by eapply tensor_dtype_ok. rewrite TM, Z.eqb_refl. cbn [negb].
  erewrite bind_done by by eapply tensor_dtype_ok. rewrite TV, Z.eqb_refl. cbn [negb].
  erewrite bind_done by by eapply tensor_size_ok.
  erewrite bind_done by by eapply tensor_size_ok.
  assert (prodZ [ch] = ch) as -> by (rewrite prodZ_cons, prodZ_nil; lia).
  rewrite !Z.eqb_refl. cbn [negb orb].
  erewrite bind_done by by eapply tensor_ndim_ok.
  erewrite bind_done by by eapply tensor_ndim_ok.
  change (negb (Z.of_nat (length [ch]) =? 1)) with false. cbv match. cbn [orb].
  by rewrite Heps.
Qed.

Lemma sublist_prod (l k : list Z) : l `sublist_of` k -> 1 <= prodZ (Z.max 1 <$> l) <= prodZ (Z.max 1 <$> k).
Proof.
  induction 1 as [|x l k H IH|x l k H IH]; rewrite ?fmap_cons, ?prodZ_cons; [rewrite fmap_nil, prodZ_nil; lia| |].
  - set (a := prodZ _) in *. set (b := prodZ _) in *. assert (1 <= Z.max 1 x) by lia. set (y := Z.max 1 x) in *. nia.
  - set (a := prodZ _) in *. set (b := prodZ _) in *. assert (1 <= Z.max 1 x) by lia. set (y := Z.max 1 x) in *. nia.
Qed.
Lemma fits_sublist sz l k : l `sublist_of` k -> fits sz k -> fits sz l.
Proof.
  intros H (H1 & H2 & H3). pose proof (sublist_prod _ _ H). pose proof (sublist_length _ _ H).
  split_and!; [|lia|nia]. rewrite Forall_forall in *. intros x Hx. apply H1. by eapply elem_of_submseteq, sublist_submseteq.
Qed.

Lemma bn_created p dt dev dims order px o E s :
  wf s -> alloc_all E -> view (heap s) p dt dev dims order px -> sized dt dims ->
  exists q s1, batch_norm_create_output (HPtr p) o E s = Done (SUCCESS, HPtr q) s1 /\ wf s1 /\ heap s ⊆ heap s1.
Proof.
  intros Hwf HE Hv Hs. destruct (create_sized_ok dt dev dims HUndef E s Hwf Hs HE) as (s1 & q & pd & pm & ps & qx & Hc & Ht).
  exists q, s1. split_and!; [|by eapply tnew_wf|by eapply tnew_base].
  unfold batch_norm_create_output, nn_create_like.
  erewrite bind_done by by eapply tensor_dims_ok.
  erewrite bind_done by by eapply tensor_ndim_ok.
  erewrite bind_done by by eapply tensor_dtype_ok.
  erewrite bind_done by by eapply tensor_device_ok.
  erewrite bind_done by exact Hc. cbv match. by rewrite bool_decide_eq_true_2.
Qed.

Lemma batch_norm_unknown p pS pB pM pV dt dtS dtB dtM dtV dev devS devB devM devV dims ch
    oT oS oB oM oV px pxS pxB pxM pxV axis eps o E s :
  wf s -> alloc_all E ->
  view (heap s) p dt dev dims oT px -> view (heap s) pS dtS devS [ch] oS pxS -> view (heap s) pB dtB devB [ch] oB pxB ->
  view (heap s) pM dtM devM [ch] oM pxM -> view (heap s) pV dtV devV [ch] oV pxV ->
  (2 <= length dims <= 5)%nat -> axis = 1 \/ axis = Z.of_nat (length dims) - 1 -> dims !! Z.to_nat axis = Some ch ->
  d_code dtS = d_code dt -> d_code dtB = d_code dt -> d_code dtM = d_code dt -> d_code dtV = d_code dt ->
  SFltb eps fzero = false -> unknown dt -> sized dt dims ->
  aitisa_batch_norm (HPtr p) axis (HPtr pS) (HPtr pB) (HPtr pM) (HPtr pV) eps o E s = UB UB_oob.
Proof.
  intros Hwf HE Vt VS VB VM VV Hr Hax Hch TS TB TM TV Heps Hu Hs. unfold aitisa_batch_norm.
  erewrite bind_done by by eapply bn_check_view. rewrite bool_decide_eq_true_2 by done. cbn [negb].
  destruct (bn_created p dt dev dims oT px o E s Hwf HE Vt Hs) as (q & s1 & Hc & Hwf1 & Hsub).
  erewrite bind_done by exact Hc. cbv beta match. rewrite bool_decide_eq_true_2 by done. cbn [negb].
  pose proof (view_mono _ _ _ _ _ _ _ _ Hsub Vt) as Vt1.
  pose proof (view_mono _ _ _ _ _ _ _ _ Hsub VV) as VV1.
  erewrite bind_done by by eapply tensor_ndim_ok.
  destruct Hs as [Hsz Hf].
  destruct (Z.eqb_spec (Z.of_nat (length dims)) 2) as [H2|H2].
  - apply bind_UB. unfold bn_denominator.
    erewrite bind_done by by eapply tensor_dtype_ok.
    erewrite bind_done by by eapply tensor_device_ok.
    erewrite bind_done by by eapply tensor_dims_ok.
    erewrite bind_done by by eapply tensor_ndim_ok.
    unfold try_. apply bind_UB. apply (full_unknown dt dev [ch]); [done| |done|done].
    split; [done|].
    eapply fits_sublist; [|exact Hf]. rewrite <-(take_drop_middle _ _ _ Hch).
    apply sublist_inserts_l, sublist_skip, sublist_nil_l.
  - replace ((2 <? Z.of_nat (length dims)) && (Z.of_nat (length dims) <? 6)) with true by lia.
    apply bind_UB. unfold bn_intermediate.
    erewrite bind_done by by eapply tensor_ndim_ok.
    erewrite bind_done by by eapply tensor_dtype_ok.
    erewrite bind_done by by eapply tensor_device_ok.
    erewrite bind_done by by eapply tensor_dims_ok.
    erewrite bind_done by (eapply tensor_dim_ok; [exact Vt1|lia|done]).
    cbv zeta.
    destruct (raw_alloc_cases (8 * (Z.of_nat (length dims) - 2)) CRaw E s1) as [Ha|[Hna _]];
      [unfold PTRDIFF_MAX; lia| |done].
    unfold scratch. erewrite bind_done by exact Ha. cbn [is_null].
    set (s2 := st_alloc s1 _). assert (wf s2) as Hwf2 by by apply wf_alloc.
    assert (exists pd, (if axis =? 1 then for64 2 (Z.of_nat (length dims)) (fun i acc => let* d := aget dims i in ret (acc ++ [d])) []
      else for64 1 (Z.of_nat (length dims) - 1) (fun i acc => let* d := aget dims i in ret (acc ++ [d])) []) E s2 = Done pd s2 /\
      length pd = (length dims - 2)%nat /\ pd `sublist_of` dims) as (pd & Hp & Hlp & Hsp).
    { destruct (Z.eqb_spec axis 1) as [Ha1|Ha1].
      - eexists. rewrite (segment_ok dims 2 _ (length dims - 2)) by lia. split; [done|].
        split; [rewrite take_length, drop_length; lia|].
        etrans; [apply sublist_take|apply sublist_drop].
      - eexists. rewrite (segment_ok dims 1 _ (length dims - 2)) by lia. split; [done|].
        split; [rewrite take_length, drop_length; lia|].
        etrans; [apply sublist_take|apply sublist_drop]. }
    erewrite bind_done by exact Hp. unfold try_. apply bind_UB.
    replace (Z.of_nat (length dims) - 2) with (Z.of_nat (length pd)) by lia.
    apply full_unknown; [done| |done|done]. split; [done|]. by eapply fits_sublist.
Qed.
