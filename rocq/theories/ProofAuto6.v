(** * ProofAuto6: the tolerance of the convolution test is absolute *)
From stdpp Require Import gmap list.
From Coq Require Import ZArith Lia Reals Lra Floats.SpecFloat.
From Flocq Require Import Core.
From Flocq Require Import IEEE754.BinarySingleNaN.
From Verif Require Import Base Mem Spec SpecReal SpecError ModelAuto ProofFloat2 ProofAuto.
Open Scope Z_scope.

(** A float of magnitude at least 2^14 is a multiple of 2^-9. *)
Lemma float_grid x : valid_binary 24 128 x = true -> (16384 <= Rabs (RV x))%R -> exists m, RV x = (IZR m / 512)%R.
Proof.
  intros Hx Hb. pose proof (fmt_val F32 x Hx) as Hf. change (SF2R radix2 x) with (RV x) in Hf.
  apply (FLT_format_generic radix2 (-149) 24) in Hf.
  destruct Hf as [f Hr Hm He]. rewrite Hr in *. destruct f as [m e]. cbn [Fnum Fexp] in *.
  assert (-9 <= e) as Hge.
  { apply Z.nlt_ge. intros Hlt. assert (Rabs (F2R (Float radix2 m e)) < bpow radix2 14)%R as Hc.
    { eapply Rlt_le_trans; [eapply F2R_lt_bpow|apply bpow_le].
      - cbn [Fnum Fexp]. instantiate (1 := 24 + e).
        replace (24 + e - e) with 24 by lia. exact Hm.
      - lia. }
    change (bpow radix2 14) with 16384%R in Hc. lra. }
  exists (m * 2 ^ (e + 9)). unfold F2R. cbn [Fnum Fexp]. rewrite mult_IZR.
  rewrite (IZR_Zpower radix2) by lia. rewrite bpow_plus. change (bpow radix2 9) with 512%R. lra.
Qed.

Lemma same_float_large x y : valid_binary 24 128 x = true -> valid_binary 24 128 y = true ->
  (32768 <= Rabs (RV x))%R -> ModelAuto.same_float F32 (VF x) (VF y) = true -> RV x = RV y.
Proof.
  intros Hx Hy Hl Hs. destruct (same_float_near F32 x y eq_refl Hx Hy) as [Hn _].
  destruct (Hn Hs) as (_ & _ & Hd).
  pose proof (Rabs_triang_inv (RV x) (RV y)) as Ht.
  destruct (float_grid x Hx) as [m Hm]; [lra|].
  destruct (float_grid y Hy) as [n Hn']; [lra|].
  rewrite Hm, Hn' in *. replace (IZR m / 512 - IZR n / 512)%R with (IZR (m - n) / 512)%R in Hd by (rewrite minus_IZR; lra).
  assert (m - n = 0) as H0.
  { destruct (Z.eq_dec (m - n) 0) as [|Hne]; [done|]. exfalso.
    assert (1 <= Rabs (IZR (m - n)))%R by (rewrite <-abs_IZR; apply IZR_le; lia).
    unfold Rdiv in Hd. rewrite Rabs_mult, (Rabs_pos_eq (/ 512)) in Hd by lra. lra. }
  by replace m with n by lia.
Qed.
