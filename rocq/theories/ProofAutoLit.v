(** * ProofAutoLit: the literals and tables of the test harness *)
From stdpp Require Import list.
From Coq Require Import ZArith Lia Reals Lra Floats.SpecFloat.
From Flocq Require Import Core IEEE754.BinarySingleNaN.
From Verif Require Import Base Mem Spec SpecReal SpecError ModelCore ModelAuto.
From Verif Require Import ProofFloat ProofFloat2 ProofFloat3 ProofFloat4 ProofError ProofAuto ProofAuto2 ProofOrder.
Open Scope Z_scope.

Lemma lit_rnd k d : 0 < k <= 2 ^ 53 -> flt_op F64 OpDiv (flt_of_Z F64 1) (flt_of_Z F64 k) = d -> is_finite_SF d = true ->
  RV d = rnd F64 (1 / IZR k).
Proof.
  intros Hk Hd Fd. destruct (flt_of_Z_exact F64 1 ltac:(cbn; lia)) as [F1 R1].
  destruct (flt_of_Z_exact F64 k ltac:(change (fprec F64) with 53; lia)) as [Fk Rk].
  assert (0 < IZR k)%R as Hk' by (apply IZR_lt; lia).
  pose proof (div_rnd F64 (flt_of_Z F64 1) (flt_of_Z F64 k) (flt_of_Z_valid _ _) (flt_of_Z_valid _ _) F1 Fk ltac:(rewrite Rk; done)) as H.
  rewrite R1, Rk, Hd in H. destruct H as [H1 H2].
  destruct (Rlt_or_le (Rabs (rnd F64 (1 / IZR k))) (bpow radix2 (femax F64))) as [H|H]; [by apply H1|].
  rewrite (H2 H) in Fd. done.
Qed.
Lemma tenth_rnd : RV d_tenth = rnd F64 (1 / 10).
Proof. apply (lit_rnd 10); [lia|vm_compute; reflexivity|done]. Qed.
Lemma milli_rnd : RV d_milli = rnd F64 (1 / 1000).
Proof. apply (lit_rnd 1000); [lia|vm_compute; reflexivity|done]. Qed.
Lemma same_float_iff' t x y : is_float t = true ->
  valid_binary (fprec t) (femax t) x = true -> valid_binary (fprec t) (femax t) y = true ->
  same_float t (VF x) (VF y) = true <->
  is_finite_SF x = true /\ is_finite_SF y = true /\ (Rabs (rnd t (RV x - RV y)) < rnd F64 (1 / 1000))%R.
Proof. rewrite <-milli_rnd. apply same_float_iff. Qed.
Lemma devices_at n E s : int_to_device n E s = if (0 <=? n) && (n <? 2) then Done (Dev n 0) s else UB UB_oob.
Proof.
  unfold int_to_device, aget. destruct (decide (0 <= n < 2)) as [H|H].
  - assert (n = 0 \/ n = 1) as [-> | ->] by lia; reflexivity.
  - replace ((0 <=? n) && (n <? 2)) with false by lia. unfold aitisa_devices.
    replace (zget _ n) with (@None device); [done|]. unfold zget.
    destruct (Z.ltb_spec n 0) as [Hn|Hn]; [done|]. symmetry. apply lookup_ge_None_2. cbn. lia.
Qed.
Lemma same_int_iff t x y : is_float t = false -> val_ok t x -> val_ok t y -> same_int x y = true <-> x = y.
Proof.
  intros Ht. destruct x as [a|f|], y as [b|g|]; cbn [val_ok same_int]; try done; try (intros _ [Hf _]; congruence); try (intros [Hf _]; congruence).
  intros _ _. rewrite Z.eqb_eq. split; [by intros ->|by intros [= ->]].
Qed.
