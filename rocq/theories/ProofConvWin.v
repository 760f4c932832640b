(** * ProofConvWin: the windows of a convolution *)
From stdpp Require Import list.
From Coq Require Import ZArith Lia.
From Coq Require Import ZifyBool ZifyNat.
From Verif Require Import Base Spec SpecNN SpecConv ProofIndex ProofSlice ProofWindow ProofPool.
Open Scope Z_scope.

Lemma cv_ok_length ds ks ss ps ls : cv_ok ds ks ss ps ls ->
  length ks = length ds /\ length ss = length ds /\ length ps = length ds /\ length ls = length ds.
Proof.
  revert ks ss ps ls. induction ds as [|d ds IH]; intros [|k ks] [|s ss] [|p ps] [|l ls]; try done.
  intros [_ H]. apply IH in H as (? & ? & ? & ?). cbn. split_and!; congruence.
Qed.
Lemma cv_outs_length ds ks ss ps ls : cv_ok ds ks ss ps ls ->
  length (cv_outs ds ks ss ps ls) = length ds.
Proof.
  revert ks ss ps ls. induction ds as [|d ds IH]; intros [|k ks] [|s ss] [|p ps] [|l ls]; try done.
  intros [_ H]. cbn. f_equal. by apply IH.
Qed.
Lemma cv_get ds ks ss ps ls i : cv_ok ds ks ss ps ls -> (i < length ds)%nat ->
  exists d k s p l, ds !! i = Some d /\ ks !! i = Some k /\ ss !! i = Some s /\ ps !! i = Some p /\
    ls !! i = Some l /\ cv_ok1 d k s p l /\ cv_outs ds ks ss ps ls !! i = Some (cv_out d k s p l).
Proof.
  revert ks ss ps ls i. induction ds as [|d ds IH]; intros [|k ks] [|s ss] [|p ps] [|l ls] i; try done.
  { cbn. lia. }
  intros [H1 H] Hi. destruct i as [|i].
  - exists d, k, s, p, l. done.
  - apply (IH _ _ _ _ i H). cbn in Hi. lia.
Qed.
(** Below a step the truncated quotient is 0. *)
Lemma cv_out_short d k s p l : cv_ok1 d k s p l -> d + 2 * p < l * (k - 1) + 1 -> cv_out d k s p l = 1.
Proof.
  intros ((H1 & H2 & H3 & H4 & H5 & H6 & H7) & H8) Hs. unfold cv_out.
  replace (d + 2 * p - l * (k - 1) - 1) with (- (l * (k - 1) + 1 - d - 2 * p)) by ring.
  rewrite Z.quot_opp_l by lia. rewrite Z.quot_small by lia. done.
Qed.
Lemma cv_out_fit d k s p l : 1 <= s -> l * (k - 1) + 1 <= d + 2 * p -> cv_out d k s p l = win_out d k s p l.
Proof. intros H1 H2. unfold cv_out, win_out. rewrite Z.quot_div_nonneg by lia. done. Qed.
Lemma cv_ok1_fit d k s p l : cv_ok1 d k s p l -> l * (k - 1) + 1 <= d + 2 * p -> win_ok1 d k s p l.
Proof. intros ((H1 & H2 & H3 & H4 & H5 & H6 & H7) & H8) H. unfold win_ok1. tauto. Qed.
Lemma win_cv1 d k s p l : win_ok1 d k s p l -> cv_ok1 d k s p l.
Proof. intros (H1 & H2 & H3 & H4 & H5 & H6 & H7 & H8). split; [unfold sane1; tauto|lia]. Qed.
Lemma cv_out_pos d k s p l : cv_ok1 d k s p l -> 0 < cv_out d k s p l.
Proof.
  intros H. destruct (Z.lt_ge_cases (d + 2 * p) (l * (k - 1) + 1)) as [Hs|Hs].
  - rewrite cv_out_short by done. lia.
  - pose proof (cv_ok1_fit _ _ _ _ _ H Hs) as Hw. rewrite cv_out_fit by (destruct Hw; lia). by apply win_out_pos.
Qed.
Lemma cv_outs_pos ds ks ss ps ls : cv_ok ds ks ss ps ls ->
  Forall (fun d => 0 < d) (cv_outs ds ks ss ps ls).
Proof.
  revert ks ss ps ls. induction ds as [|d ds IH]; intros [|k ks] [|s ss] [|p ps] [|l ls]; try done.
  { intros _. constructor. }
  intros [H1 H]. cbn. constructor; [by apply cv_out_pos|by apply IH].
Qed.
Lemma cv_ks_pos ds ks ss ps ls : cv_ok ds ks ss ps ls -> Forall (fun d => 0 < d) ks.
Proof.
  revert ks ss ps ls. induction ds as [|d ds IH]; intros [|k ks] [|s ss] [|p ps] [|l ls]; try done.
  intros [((_ & H1 & _) & _) H]. constructor; [lia|by eapply IH].
Qed.
Lemma cv_reach d k s p l x : cv_ok1 d k s p l -> 0 <= x < cv_out d k s p l ->
  - p <= - p + s * x /\ - p + s * x + (k - 1) * l <= p + d - 1 + s.
Proof.
  intros H Hx. destruct (Z.lt_ge_cases (d + 2 * p) (l * (k - 1) + 1)) as [Hs|Hs].
  - rewrite cv_out_short in Hx by done. assert (x = 0) as -> by lia.
    destruct H as ((H1 & H2 & H3 & H4 & H5 & H6 & H7) & H8). lia.
  - pose proof (cv_ok1_fit _ _ _ _ _ H Hs) as Hw. assert (1 <= s) by (destruct Hw; lia).
    rewrite cv_out_fit in Hx by lia.
    pose proof (win_reach _ _ _ _ _ x Hw Hx). lia.
Qed.
Lemma cv_coord_pos ds ks ss ps ls o w : cv_ok ds ks ss ps ls ->
  length o = length ds -> length w = length ds ->
  win_coord ss ps ls o w = slice_pos (slice_pos (Z.opp <$> ps) ss o) ls w.
Proof.
  revert ks ss ps ls o w.
  induction ds as [|d ds IH]; intros [|k ks] [|s ss] [|p ps] [|l ls] [|x o] [|y w]; try done.
  intros [_ H] Lo Lw. unfold win_coord. cbn [zip_with slice_pos fmap list_fmap]. f_equal; [ring|].
  apply (IH _ _ _ _ o w H); [by injection Lo|by injection Lw].
Qed.
Lemma cv_heads_length {ds ks ss ps ls} (H : cv_ok ds ks ss ps ls) o : length o = length ds ->
  length (heads ps ss o) = length ds.
Proof.
  intros Ho. destruct (cv_ok_length _ _ _ _ _ H) as (L1 & L2 & L3 & L4).
  unfold heads. rewrite slice_pos_length; rewrite ?fmap_length; lia.
Qed.

(** Windows that fit are among them, with the same positions. *)
Lemma win_cv ds ks ss ps ls : win_ok ds ks ss ps ls ->
  cv_ok ds ks ss ps ls /\ cv_outs ds ks ss ps ls = win_outs ds ks ss ps ls.
Proof.
  revert ks ss ps ls. induction ds as [|d ds IH]; intros [|k ks] [|s ss] [|p ps] [|l ls]; try done.
  intros [H1 H]. destruct (IH _ _ _ _ H) as [Ha Hb]. split.
  - split; [by apply win_cv1|done].
  - cbn. rewrite Hb. f_equal. destruct H1 as (H1 & H2 & H3 & H4 & H5 & H6 & H7 & H8).
    apply cv_out_fit; lia.
Qed.
