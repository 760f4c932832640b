(** * PropPart: samples, channels, filters, rows and columns are processed independently (C77) *)
From stdpp Require Import gmap list.
From Coq Require Import ZArith Lia Reals Floats.SpecFloat.
From Flocq Require Import Core.Float_prop.
From Verif Require Import Base Mem Spec SpecReal SpecNN SpecNorm SpecCommute SpecPart SpecProduct ModelCore ModelBasic ModelMath ModelNN Logic
  ProofCore ProofCore2 ProofKernel ProofPart ProofPart2 ProofPart3 PropNN PropPool2 RefuteConv Fixture.
Open Scope Z_scope.

(** Pooling some samples and channels is pooling everything and selecting those samples and channels. *)
Theorem C77_pooling : forall mo ex p T nb nc sd ks ss ps ls o E s b n t c m u,
  mo <> POther ->
  wf s -> alloc_all E -> hooks_ok E -> holds (heap s) p T -> init T ->
  a_dims T = nb :: nc :: sd -> (1 <= length sd <= 3)%nat -> win_ok sd ks ss ps ls ->
  prodZ ks <= INT64_MAX -> prodZ (win_outs sd ks ss ps ls) <= INT_MAX ->
  (Z.to_nat (prodZ ks) <= e_fuel E)%nat -> (Z.to_nat (prodZ (win_outs sd ks ss ps ls)) <= e_fuel E)%nat ->
  fits (tsz (a_type T)) (nb :: nc :: win_outs sd ks ss ps ls) ->
  (exists X, makes (aitisa_pooling (HPtr p) mo ks ss ps ls o) E s X) ->
  part_ok b n t c m u nb nc sd -> cdiv n t * (cdiv m u * prodZ (win_outs sd ks ss ps ls)) <= INT_MAX ->
  exists B C D, makes (aitisa_pooling (HPtr p) mo ks ss ps ls o) E s B /\
    gives1 ex (part b n t c m u sd) T C /\ gives1 ex (part b n t c m u (win_outs sd ks ss ps ls)) B D /\
    forall p' o' E' s', wf s' -> alloc_all E' -> hooks_ok E' -> holds (heap s') p' C ->
      (Z.to_nat (prodZ ks) <= e_fuel E')%nat -> (Z.to_nat (prodZ (win_outs sd ks ss ps ls)) <= e_fuel E')%nat ->
      makes (aitisa_pooling (HPtr p') mo ks ss ps ls o') E' s' D.
Proof. exact pool_part. Qed.
Print Assumptions C77_pooling.
(** Convolving some samples with some filters is convolving everything and selecting those samples and output channels. *)
Theorem C77_convolution : forall ex p pf T F nb nc oc fc sd ks ss ps ls g o E s b n t f m u,
  wf s -> alloc_all E -> hooks_ok E -> holds (heap s) p T -> holds (heap s) pf F ->
  a_type T = F32 -> a_type F = F32 ->
  a_dims T = nb :: nc :: sd -> a_dims F = oc :: fc :: ks -> nc <= fc -> 0 < nc ->
  (length sd <= 3)%nat -> win_ok sd ks ss ps ls ->
  fits (tsz F32) (nb :: oc :: win_outs sd ks ss ps ls) -> init T -> init F ->
  part_ok b n t 0 nc 1 nb nc sd -> part_ok f m u 0 fc 1 oc fc ks ->
  cdiv n t * (cdiv m u * prodZ (win_outs sd ks ss ps ls)) <= INT_MAX ->
  exists B C G D, makes_saying (conv_status E) (aitisa_conv (HPtr p) (HPtr pf) ss ps ls g o) E s B /\
    gives1 ex (part b n t 0 nc 1 sd) T C /\ gives1 ex (part f m u 0 fc 1 ks) F G /\
    gives1 ex (part b n t f m u (win_outs sd ks ss ps ls)) B D /\
    forall p' pf' g' o' E' s', wf s' -> alloc_all E' -> hooks_ok E' -> holds (heap s') p' C -> holds (heap s') pf' G ->
      makes_saying (conv_status E') (aitisa_conv (HPtr p') (HPtr pf') ss ps ls g' o') E' s' D.
Proof. exact conv_part. Qed.
Print Assumptions C77_convolution.
(** The product of some rows and some columns is that part of the whole product. *)
Theorem C77_matrix_product : forall ex p1 p2 T1 T2 r k l o E s b n t c m u,
  wf s -> alloc_all E -> holds (heap s) p1 T1 -> holds (heap s) p2 T2 ->
  a_type T2 = a_type T1 -> dev_type (a_dev T1) = 0 -> dev_type (a_dev T2) = 0 ->
  a_dims T1 = [r; k] -> a_dims T2 = [k; l] -> fits (tsz (a_type T1)) [r; l] ->
  product_ok (a_type T1) r k l (fun i q => at_ T1 [i; q]) (fun q j => at_ T2 [q; j]) ->
  part_ok b n t 0 k 1 r k [] -> part_ok 0 k 1 c m u k l [] ->
  exists B C G D, makes (aitisa_matmul (HPtr p1) (HPtr p2) o) E s B /\
    gives1 ex (part b n t 0 k 1 []) T1 C /\ gives1 ex (part 0 k 1 c m u []) T2 G /\ gives1 ex (part b n t c m u []) B D /\
    gives2 (fun p q o => aitisa_matmul p q o) C G D.
Proof. exact mm_part. Qed.
Print Assumptions C77_matrix_product.
(** Normalising some samples and channels, with the parameters of those channels, is normalising everything and selecting them. *)
Theorem C77_batch_norm : forall ex p pS pB pM pV T Sc Bi Me Va d1 d2 sd eps o E s b n t c m u,
  wf s -> alloc_all E -> hooks_ok E ->
  holds (heap s) p T -> holds (heap s) pS Sc -> holds (heap s) pB Bi -> holds (heap s) pM Me -> holds (heap s) pV Va ->
  is_float (a_type T) = true -> a_dims T = d1 :: d2 :: sd -> bn_ok T 1 Sc Bi Me Va eps -> bn_sizes T 1 ->
  valid_binary (fprec F64) (femax F64) eps = true ->
  Forall (fun U => dev_type (a_dev U) = 0 /\ init U) [T; Sc; Bi; Me; Va] ->
  Forall (fun v => ~ negative v) (a_vals Va) ->
  part_ok b n t c m u d1 d2 sd ->
  exists B C D Sc' Bi' Me' Va',
    makes (aitisa_batch_norm (HPtr p) 1 (HPtr pS) (HPtr pB) (HPtr pM) (HPtr pV) eps o) E s B /\
    gives1 ex (part b n t c m u sd) T C /\ gives1 ex (part1 c m u) Sc Sc' /\ gives1 ex (part1 c m u) Bi Bi' /\
    gives1 ex (part1 c m u) Me Me' /\ gives1 ex (part1 c m u) Va Va' /\ gives1 ex (part b n t c m u sd) B D /\
    forall p' pS' pB' pM' pV' o' E' s', wf s' -> alloc_all E' -> hooks_ok E' ->
      holds (heap s') p' C -> holds (heap s') pS' Sc' -> holds (heap s') pB' Bi' -> holds (heap s') pM' Me' -> holds (heap s') pV' Va' ->
      makes (aitisa_batch_norm (HPtr p') 1 (HPtr pS') (HPtr pB') (HPtr pM') (HPtr pV') eps o') E' s' D.
Proof. exact bn_part. Qed.
Print Assumptions C77_batch_norm.
(** Softmax along an axis of a slice that keeps that axis whole is the slice of the softmax. *)
Theorem C77_softmax : forall p T a d bs ns ts o E s,
  wf s -> alloc_all E -> hooks_ok E -> holds (heap s) p T -> init T ->
  Forall (fun d => 0 < d) (a_dims T) -> 2 * prodZ (a_dims T) <= INT64_MAX -> a_dims T !! a = Some d ->
  (exists X, makes (aitisa_softmax (HPtr p) (Z.of_nat a) o) E s X) ->
  slice_ok (a_dims T) bs ns ts -> Forall (fun n => 0 < n) ns -> prodZ (slice_dims ns ts) <= INT_MAX ->
  bs !! a = Some 0 -> ns !! a = Some d -> ts !! a = Some 1 ->
  exists B C D, makes (aitisa_softmax (HPtr p) (Z.of_nat a) o) E s B /\
    gives1 (e_exp E) (fun p o => aitisa_slice p bs ns ts o) T C /\ gives1 (e_exp E) (fun p o => aitisa_slice p bs ns ts o) B D /\
    gives1 (e_exp E) (fun p o => aitisa_softmax p (Z.of_nat a) o) C D.
Proof. exact softmax_slice. Qed.
Print Assumptions C77_softmax.

(** ** Cases that meet the hypotheses: three samples of two channels of 2 by 2 int16; samples 0 and 2, channel 1 *)
Definition P_img : atensor := AT I16 cpu [3; 2; 2; 2]
  (VI <$> [1; -2; 3; 4; 5; 6; -7; 8; 9; 10; 11; -12; 13; 14; 15; 16; 17; 18; -19; 20; 21; 22; 23; 24]).
Lemma P_img_valid : valid P_img. Proof. lit_valid. Qed.
Example C77_pooling_ex : valid P_img /\ init P_img /\ win_ok [2; 2] [2; 1] [1; 1] [0; 0] [1; 1] /\
  win_outs [2; 2] [2; 1] [1; 1] [0; 0] [1; 1] = [1; 2] /\ fits (tsz I16) [3; 2; 1; 2] /\
  (exists X, makes (aitisa_pooling (HPtr 0) PAvg [2; 1] [1; 1] [0; 0] [1; 1] HUndef) E0 (fx [P_img]) X) /\
  part_ok 0 3 2 1 1 1 3 2 [2; 2].
Proof.
  assert (win_ok [2; 2] [2; 1] [1; 1] [0; 0] [1; 1]) as Hok by (cbn; unfold win_ok1; lims; lia).
  assert (init P_img) as I by (repeat constructor; vm_compute; done).
  split_and!; [exact P_img_valid|exact I|exact Hok|done|lit_fits| |].
  - edestruct (C41_exact 0 P_img 3 2 [2; 2] [2; 1] [1; 1] [0; 0] [1; 1] HUndef E0 (fx [P_img])) as [[T (_ & _ & _ & _ & _ & M)] _];
      [apply fx_wf|apply E0_alloc|apply E0_hooks|exact (fx_holds [P_img] 0 P_img eq_refl P_img_valid)|exact I|done|cbn; lia|exact Hok|
       vm_compute; done|vm_compute; done|vm_compute; lia|vm_compute; lia|change (fits (tsz I16) [3; 2; 1; 2]); lit_fits| |by exists T].
    intros b c x Hx. change (win_outs [2; 2] [2; 1] [1; 1] [0; 0] [1; 1]) with [1; 2] in Hx.
    inversion Hx as [|? ? ? ? Hb Hx1]; subst. inversion Hx1 as [|? ? ? ? Hc Hx2]; subst. inversion Hx2 as [|? y ? x' Hy Hx3]; subst.
    inversion Hx3 as [|? z ? x'' Hz Hx4]; subst. inversion Hx4; subst.
    assert (y = 0) as -> by lia. assert (z = 0 \/ z = 1) as [-> | ->] by lia; assert (c = 0 \/ c = 1) as [-> | ->] by lia;
      assert (b = 0 \/ b = 1 \/ b = 2) as [-> | [-> | ->]] by lia; vm_compute; discriminate.
  - unfold part_ok, INT_MAX. split_and!; try lia; [repeat constructor; lia|]. vm_compute. discriminate.
Qed.
(** Pooling the selection and selecting from the pooled tensor *)
Example C77_pooling_run :
  (exists r s, (let* x := part 0 3 2 1 1 1 [2; 2] (HPtr 0) HUndef in aitisa_pooling x.2 PAvg [2; 1] [1; 1] [0; 0] [1; 1] HUndef)
     E0 (fx [P_img]) = Done r s /\ peek E0 s r = Some (SUCCESS, [2; 1; 1; 2], VI <$> [-1; 7; 22; 23])) /\
  (exists r s, (let* x := aitisa_pooling (HPtr 0) PAvg [2; 1] [1; 1] [0; 0] [1; 1] HUndef in part 0 3 2 1 1 1 [1; 2] x.2 HUndef)
     E0 (fx [P_img]) = Done r s /\ peek E0 s r = Some (SUCCESS, [2; 1; 1; 2], VI <$> [-1; 7; 22; 23])).
Proof. split; apply run_ex; vm_compute; reflexivity. Qed.

(** Two one-channel signals of three floats, three filters of two weights; sample 1, filters 0 and 2 *)
Definition P_sig : atensor := AT F32 cpu [2; 1; 3] (fl [1; 2; 3; 4; 5; 6]).
Definition P_fil : atensor := AT F32 cpu [3; 1; 2] (fl [1; -1; 10; 0; 2; 3]).
Lemma P_sig_valid : valid P_sig. Proof. lit_valid. Qed.
Lemma P_fil_valid : valid P_fil. Proof. lit_valid. Qed.
Example C77_convolution_ex : valid P_sig /\ valid P_fil /\ init P_sig /\ init P_fil /\ win_ok [3] [2] [1] [0] [1] /\
  win_outs [3] [2] [1] [0] [1] = [2] /\ fits (tsz F32) [2; 3; 2] /\
  part_ok 1 1 1 0 1 1 2 1 [3] /\ part_ok 0 3 2 0 1 1 3 1 [2] /\ cdiv 1 1 * (cdiv 3 2 * prodZ [2]) <= INT_MAX.
Proof.
  split_and!; [exact P_sig_valid|exact P_fil_valid|repeat constructor; vm_compute; done|repeat constructor; vm_compute; done|
    cbn; unfold win_ok1; lims; lia|done|lit_fits| | |vm_compute; done].
  - unfold part_ok, INT_MAX. split_and!; try lia; [repeat constructor; lia|]. vm_compute. discriminate.
  - unfold part_ok, INT_MAX. split_and!; try lia; [repeat constructor; lia|]. vm_compute. discriminate.
Qed.
Example C77_convolution_run :
  (exists r s, (let* x := part 1 1 1 0 1 1 [3] (HPtr 0) HUndef in let* y := part 0 3 2 0 1 1 [2] (HPtr 5) HUndef in
                aitisa_conv x.2 y.2 [1] [0] [1] 1 HUndef)
     E0 (fx [P_sig; P_fil]) = Done r s /\ peek E0 s r = Some (INTERNAL_ERROR, [1; 2; 2], fl [-1; -1; 23; 28])) /\
  (exists r s, (let* x := aitisa_conv (HPtr 0) (HPtr 5) [1] [0] [1] 1 HUndef in part 1 1 1 0 3 2 [2] x.2 HUndef)
     E0 (fx [P_sig; P_fil]) = Done r s /\ peek E0 s r = Some (SUCCESS, [1; 2; 2], fl [-1; -1; 23; 28])).
Proof. split; apply run_ex; vm_compute; reflexivity. Qed.

(** A 2 by 2 and a 2 by 3 matrix; row 1, columns 0 and 2 *)
Definition P_l : atensor := AT I32 cpu [2; 2] (VI <$> [1; 2; 3; 4]).
Definition P_r : atensor := AT I32 cpu [2; 3] (VI <$> [5; 6; 7; -8; 9; 10]).
Lemma P_l_valid : valid P_l. Proof. lit_valid. Qed.
Lemma P_r_valid : valid P_r. Proof. lit_valid. Qed.
Example C77_matrix_product_ex : valid P_l /\ valid P_r /\ fits (tsz I32) [2; 3] /\
  product_ok I32 2 2 3 (fun i q => at_ P_l [i; q]) (fun q j => at_ P_r [q; j]) /\
  part_ok 1 1 1 0 2 1 2 2 [] /\ part_ok 0 2 1 0 3 2 2 3 [].
Proof.
  split_and!; [exact P_l_valid|exact P_r_valid|lit_fits| | |].
  - unfold product_ok, INT_MAX. split_and!; [lia|lia|lia|]. intros i j Hi Hj.
    assert (i = 0 \/ i = 1) as [-> | ->] by lia; assert (j = 0 \/ j = 1 \/ j = 2) as [-> | [-> | ->]] by lia; vm_compute; by eexists.
  - unfold part_ok, INT_MAX. split_and!; try lia; [constructor|]. vm_compute. discriminate.
  - unfold part_ok, INT_MAX. split_and!; try lia; [constructor|]. vm_compute. discriminate.
Qed.
Example C77_matrix_product_run :
  (exists r s, (let* x := part 1 1 1 0 2 1 [] (HPtr 0) HUndef in let* y := part 0 2 1 0 3 2 [] (HPtr 5) HUndef in aitisa_matmul x.2 y.2 HUndef)
     E0 (fx [P_l; P_r]) = Done r s /\ peek E0 s r = Some (SUCCESS, [1; 2], VI <$> [-17; 61])) /\
  (exists r s, (let* x := aitisa_matmul (HPtr 0) (HPtr 5) HUndef in part 1 1 1 0 3 2 [] x.2 HUndef)
     E0 (fx [P_l; P_r]) = Done r s /\ peek E0 s r = Some (SUCCESS, [1; 2], VI <$> [-17; 61])).
Proof. split; apply run_ex; vm_compute; reflexivity. Qed.

(** A 2 by 2 matrix: two samples, two channels; sample 1, channel 1 *)
Definition P_x : atensor := AT F32 cpu [2; 2] (fl [1; 2; 3; 4]).
Definition P_v (l : list Z) : atensor := AT F32 cpu [2] (fl l).
Lemma P_x_valid : valid P_x. Proof. lit_valid. Qed.
Lemma P_v_valid a b : valid (P_v [a; b]). Proof. lit_valid. Qed.
Example C77_batch_norm_ex :
  bn_ok P_x 1 (P_v [1; 2]) (P_v [0; 1]) (P_v [1; 2]) (P_v [4; 4]) fzero /\ bn_sizes P_x 1 /\
  valid_binary (fprec F64) (femax F64) fzero = true /\
  Forall (fun U => dev_type (a_dev U) = 0 /\ init U) [P_x; P_v [1; 2]; P_v [0; 1]; P_v [1; 2]; P_v [4; 4]] /\
  Forall (fun v => ~ negative v) (a_vals (P_v [4; 4])) /\ part_ok 1 1 1 1 1 1 2 2 [].
Proof.
  split_and!.
  - split_and!; try done; cbn; try lia. by exists 2.
  - unfold bn_sizes. split_and!; [repeat constructor; lia|repeat constructor; vm_compute; done|cbn; lia].
  - done.
  - repeat constructor; vm_compute; done.
  - repeat constructor; unfold negative; (intros [H|H]; [|discriminate H]); revert H; apply Rle_not_lt;
      apply Float_prop.F2R_ge_0; done.
  - unfold part_ok, INT_MAX. split_and!; try lia; [constructor|]. vm_compute. discriminate.
Qed.
Example C77_batch_norm_run :
  (exists r s, (let* x := part 1 1 1 1 1 1 [] (HPtr 0) HUndef in let* a := part1 1 1 1 (HPtr 5) HUndef in
                let* b := part1 1 1 1 (HPtr 10) HUndef in let* c := part1 1 1 1 (HPtr 15) HUndef in let* d := part1 1 1 1 (HPtr 20) HUndef in
                aitisa_batch_norm x.2 1 a.2 b.2 c.2 d.2 fzero HUndef)
     E0 (fx [P_x; P_v [1; 2]; P_v [0; 1]; P_v [1; 2]; P_v [4; 4]]) = Done r s /\ peek E0 s r = Some (SUCCESS, [1; 1], fl [3])) /\
  (exists r s, (let* x := aitisa_batch_norm (HPtr 0) 1 (HPtr 5) (HPtr 10) (HPtr 15) (HPtr 20) fzero HUndef in part 1 1 1 1 1 1 [] x.2 HUndef)
     E0 (fx [P_x; P_v [1; 2]; P_v [0; 1]; P_v [1; 2]; P_v [4; 4]]) = Done r s /\ peek E0 s r = Some (SUCCESS, [1; 1], fl [3])).
Proof. split; apply run_ex; vm_compute; reflexivity. Qed.

(** Softmax along the rows of a 3 by 2 matrix; rows 0 and 2 *)
Definition P_s : atensor := AT F32 cpu [3; 2] (fl [1; 1; 5; 7; 3; 1]).
Lemma P_s_valid : valid P_s. Proof. lit_valid. Qed.
Example C77_softmax_ex : init P_s /\ Forall (fun d => 0 < d) (a_dims P_s) /\ 2 * prodZ (a_dims P_s) <= INT64_MAX /\
  a_dims P_s !! 1%nat = Some 2 /\ (exists X, makes (aitisa_softmax (HPtr 0) (Z.of_nat 1) HUndef) E0 (fx [P_s]) X) /\
  slice_ok (a_dims P_s) [0; 0] [3; 2] [2; 1] /\ Forall (fun n => 0 < n) [3; 2] /\ prodZ (slice_dims [3; 2] [2; 1]) <= INT_MAX.
Proof.
  assert (init P_s) as I by (repeat constructor; vm_compute; done).
  split_and!; [exact I|repeat constructor; lia|vm_compute; done|done| |cbn; unfold INT_MAX; lia|repeat constructor; lia|vm_compute; done].
  destruct (C39_axis_float 0 P_s 1 2 HUndef E0 (fx [P_s])) as (T3 & _ & _ & _ & _ & M);
    [apply fx_wf|apply E0_alloc|apply E0_hooks|exact (fx_holds [P_s] 0 P_s eq_refl P_s_valid)|exact I|done|repeat constructor; lia|
     vm_compute; done|done|by exists T3].
Qed.
(** With exp = identity: halves, and three quarters and a quarter *)
Example C77_softmax_run :
  let ys := [VF (S754_finite false 8388608 (-24)); VF (S754_finite false 8388608 (-24));
      VF (S754_finite false 12582912 (-24)); VF (S754_finite false 8388608 (-25))] in
  (exists r s, (let* x := aitisa_slice (HPtr 0) [0; 0] [3; 2] [2; 1] HUndef in aitisa_softmax x.2 1 HUndef) E0 (fx [P_s]) = Done r s /\
     peek E0 s r = Some (SUCCESS, [2; 2], ys)) /\
  (exists r s, (let* x := aitisa_softmax (HPtr 0) 1 HUndef in aitisa_slice x.2 [0; 0] [3; 2] [2; 1] HUndef) E0 (fx [P_s]) = Done r s /\
     peek E0 s r = Some (SUCCESS, [2; 2], ys)).
Proof. split; apply run_ex; vm_compute; reflexivity. Qed.
