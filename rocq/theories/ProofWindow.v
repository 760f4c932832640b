(** * ProofWindow: loops over the positions of a sliding window *)
From stdpp Require Import gmap list.
From Coq Require Import ZArith Lia Floats.SpecFloat.
From Coq Require Import ZifyBool ZifyNat.
From Verif Require Import Base Mem Spec SpecNN ModelCore ModelBasic ModelMath ModelNN Logic
  ProofCore ProofCore2 ProofCore3 ProofIndex ProofLayout ProofKernel ProofKernel2 ProofBasic ProofBasic2 ProofSlice
  ProofFloat5.
Open Scope Z_scope.

Ltac Zify.zify_post_hook ::= Z.div_mod_to_equations.

(** ** Loops that run at least once *)
Lemma while_ret_fuel_rule {A R} (I : nat -> A -> st -> Prop) (body : A -> M (ctl (A * bool) R)) N E :
  (forall k x s, (k < N)%nat -> I k x s ->
     wp (body x) E s (fun r s' => exists x', r = Next (x', bool_decide (S k < N)%nat) /\ I (S k) x' s')) ->
  forall fuel k x s, (k < N)%nat -> (N - k <= fuel)%nat -> I k x s ->
  wp (while_ret_fuel fuel body x) E s (fun r s' => exists x', r = Next x' /\ I N x' s').
Proof.
  intros Hb fuel. induction fuel as [|fuel IH]; intros k x s Hk Hf HI; [lia|].
  cbn [while_ret_fuel]. apply wp_bind. eapply wp_mono; [by apply Hb|].
  intros r s' (x' & -> & HI'). cbv beta match.
  destruct (decide (S k < N)%nat) as [Hlt|Hge].
  - rewrite bool_decide_true by done. apply (IH (S k)); [done|lia|done].
  - rewrite bool_decide_false by done. apply wp_ret. exists x'. split; [done|].
    replace N with (S k) by lia. done.
Qed.
Lemma while_ret_rule {A R} (I : nat -> A -> st -> Prop) (body : A -> M (ctl (A * bool) R)) N E x s :
  (0 < N)%nat -> (N <= e_fuel E)%nat -> I 0%nat x s ->
  (forall k x s, (k < N)%nat -> I k x s ->
     wp (body x) E s (fun r s' => exists x', r = Next (x', bool_decide (S k < N)%nat) /\ I (S k) x' s')) ->
  wp (while_ret body x) E s (fun r s' => exists x', r = Next x' /\ I N x' s').
Proof.
  intros HN Hf HI Hb. unfold while_ret, wp.
  exact (while_ret_fuel_rule I body N E Hb (e_fuel E) 0 x s HN ltac:(lia) HI).
Qed.
Lemma while_ret_fuel_pure {A R} (g : nat -> A) (body : A -> M (ctl (A * bool) R)) N E s :
  (forall k, (k < N)%nat -> body (g k) E s = Done (Next (g (S k), bool_decide (S k < N)%nat)) s) ->
  forall fuel k, (k < N)%nat -> (N - k <= fuel)%nat ->
  while_ret_fuel fuel body (g k) E s = Done (Next (g N)) s.
Proof.
  intros Hb fuel. induction fuel as [|fuel IH]; intros k Hk Hf; [lia|].
  cbn [while_ret_fuel]. erewrite bind_done by (by apply Hb). cbv beta match.
  destruct (decide (S k < N)%nat) as [Hlt|Hge].
  - rewrite bool_decide_true by done. apply (IH (S k)); [done|lia].
  - rewrite bool_decide_false by done. replace N with (S k) by lia. done.
Qed.
Lemma while_ret_pure {A R} (g : nat -> A) (body : A -> M (ctl (A * bool) R)) N E x s :
  (0 < N)%nat -> (N <= e_fuel E)%nat -> x = g 0%nat ->
  (forall k, (k < N)%nat -> body (g k) E s = Done (Next (g (S k), bool_decide (S k < N)%nat)) s) ->
  while_ret body x E s = Done (Next (g N)) s.
Proof.
  intros HN Hf -> Hb. unfold while_ret. apply while_ret_fuel_pure; [done|done|lia].
Qed.
(** A loop of more rounds than there is fuel *)
Lemma while_ret_fuel_short {A R} (I : nat -> A -> st -> Prop) (body : A -> M (ctl (A * bool) R)) N E :
  (forall k x s, (k < N)%nat -> I k x s ->
     wp (body x) E s (fun r s' => exists x', r = Next (x', bool_decide (S k < N)%nat) /\ I (S k) x' s')) ->
  forall fuel k x s, (k + fuel < N)%nat -> I k x s ->
  while_ret_fuel fuel body x E s = Diverge.
Proof.
  intros Hb fuel. induction fuel as [|fuel IH]; intros k x s Hf HI; [done|].
  cbn [while_ret_fuel].
  specialize (Hb k x s ltac:(lia) HI). apply wp_elim in Hb as (r & s' & Hr & x' & -> & HI').
  erewrite bind_done by exact Hr. cbv beta match.
  rewrite bool_decide_true by lia. apply (IH (S k)); [lia|done].
Qed.

(** ** An odometer that reports when it wraps around *)
Lemma odometer_flag {A} (R : list Z -> bool -> A) es (body : Z -> A -> M (A * bool)) k E s :
  Forall (fun d => 0 < d) es -> es <> [] -> 0 <= k < prodZ es ->
  (forall i d c x, es !! i = Some d -> in_box es c -> c !! i = Some x ->
     body (Z.of_nat i) (R c true) E s
     = Done (if x + 1 <? d then (R (<[i := x + 1]> c) true, false)
             else (R (<[i := 0]> c) (negb (Z.of_nat i =? 0)), true)) s) ->
  iter_down_break (length es) body (R (unravel es k) true) E s
  = Done (R (unravel es (k + 1)) (k + 1 <? prodZ es)) s.
Proof.
  intros He. revert R k. induction es as [|d es IH] using rev_ind; intros R k Hne Hk Hb; [done|].
  clear Hne. apply Forall_app in He as [He Hd]. apply Forall_cons in Hd as [Hd _].
  rewrite prodZ_app, prodZ_cons, prodZ_nil, Z.mul_1_r in *.
  rewrite !unravel_snoc by done. rewrite app_length, Nat.add_1_r. cbn [iter_down_break].
  pose proof (unravel_length es (k / d)) as Hl.
  pose proof (unravel_in_box es (k / d) He) as Hbox.
  assert (0 <= k mod d < d) as Hm by (apply Z.mod_pos_bound; lia).
  pose proof (Z.div_mod k d ltac:(lia)) as Hdm.
  erewrite bind_done.
  2:{ apply (Hb (length es) d _ (k mod d)).
      - by rewrite lookup_app_r, Nat.sub_diag by lia.
      - apply Forall2_app; [done|]. constructor; [done|constructor].
      - rewrite lookup_app_r by lia. by rewrite Hl, Nat.sub_diag. }
  assert (forall y, <[length es := y]> (unravel es (k / d) ++ [k mod d])
                    = unravel es (k / d) ++ [y]) as Hi.
  { intros y. rewrite insert_app_r_alt by lia. by rewrite Hl, Nat.sub_diag. }
  assert (0 <= k / d < prodZ es) as Hkd.
  { split; [apply Z.div_pos; lia|]. apply Z.div_lt_upper_bound; lia. }
  rewrite !Hi. destruct (Z.ltb_spec (k mod d + 1) d) as [Hlt|Hge].
  - assert ((k + 1) / d = k / d /\ (k + 1) mod d = k mod d + 1) as [-> ->].
    { split; symmetry.
      - apply Z.div_unique with (k mod d + 1); lia.
      - apply Z.mod_unique with (k / d); lia. }
    replace (k + 1 <? prodZ es * d) with true; [done|]. clear -Hlt Hdm Hkd Hd Hm. nia.
  - assert ((k + 1) / d = k / d + 1 /\ (k + 1) mod d = 0) as [-> ->].
    { clear -Hge Hdm Hm Hd. split; symmetry.
      - apply Z.div_unique with 0; [lia|]. nia.
      - apply Z.mod_unique with (k / d + 1); [lia|]. nia. }
    assert ((k + 1 <? prodZ es * d) = (k / d + 1 <? prodZ es)) as ->.
    { clear -Hge Hdm Hm Hd. assert (k + 1 = d * (k / d + 1)) as -> by nia.
      destruct (Z.ltb_spec (k / d + 1) (prodZ es)); [|]; nia. }
    destruct es as [|e es'].
    + cbn [length iter_down_break]. rewrite prodZ_nil in *.
      replace (k / d + 1 <? 1) with false by lia. cbn [unravel app]. done.
    + set (es := e :: es') in *.
      replace (negb (Z.of_nat (length es) =? 0)) with true by (unfold es; cbn [length]; lia).
      apply (IH He (fun c b => R (c ++ [0]) b)); [done|done|].
      intros i d' c x Hi' Hc Hx. pose proof (lookup_lt_Some _ _ _ Hx) as Hic.
      erewrite Hb.
      * rewrite !insert_app_l by done. done.
      * by rewrite lookup_app_l by (by eapply lookup_lt_Some).
      * apply Forall2_app; [done|]. constructor; [lia|constructor].
      * by rewrite lookup_app_l.
Qed.

(** ** Window parameters *)
Lemma win_ok_length ds ks ss ps ls : win_ok ds ks ss ps ls ->
  length ks = length ds /\ length ss = length ds /\ length ps = length ds /\ length ls = length ds.
Proof.
  revert ks ss ps ls. induction ds as [|d ds IH]; intros [|k ks] [|s ss] [|p ps] [|l ls]; try done.
  intros [_ H]. apply IH in H as (? & ? & ? & ?). cbn. split_and!; congruence.
Qed.
Lemma win_outs_length ds ks ss ps ls : win_ok ds ks ss ps ls ->
  length (win_outs ds ks ss ps ls) = length ds.
Proof.
  revert ks ss ps ls. induction ds as [|d ds IH]; intros [|k ks] [|s ss] [|p ps] [|l ls]; try done.
  intros [_ H]. cbn. f_equal. by apply IH.
Qed.
Lemma win_get ds ks ss ps ls i : win_ok ds ks ss ps ls -> (i < length ds)%nat ->
  exists d k s p l, ds !! i = Some d /\ ks !! i = Some k /\ ss !! i = Some s /\ ps !! i = Some p /\
    ls !! i = Some l /\ win_ok1 d k s p l /\ win_outs ds ks ss ps ls !! i = Some (win_out d k s p l).
Proof.
  revert ks ss ps ls i. induction ds as [|d ds IH]; intros [|k ks] [|s ss] [|p ps] [|l ls] i; try done.
  { cbn. lia. }
  intros [H1 H] Hi. destruct i as [|i].
  - exists d, k, s, p, l. done.
  - apply (IH _ _ _ _ i H). cbn in Hi. lia.
Qed.
Lemma win_out_pos d k s p l : win_ok1 d k s p l -> 0 < win_out d k s p l.
Proof.
  intros (H1 & H2 & H3 & H4 & H5 & H6 & H7 & H8). unfold win_out.
  assert (0 <= (d + 2 * p - l * (k - 1) - 1) / s) by (apply Z.div_pos; lia). lia.
Qed.
Lemma win_outs_pos ds ks ss ps ls : win_ok ds ks ss ps ls ->
  Forall (fun d => 0 < d) (win_outs ds ks ss ps ls).
Proof.
  revert ks ss ps ls. induction ds as [|d ds IH]; intros [|k ks] [|s ss] [|p ps] [|l ls]; try done.
  { intros _. constructor. }
  intros [H1 H]. cbn. constructor; [by apply win_out_pos|by apply IH].
Qed.
Lemma win_ks_pos ds ks ss ps ls : win_ok ds ks ss ps ls -> Forall (fun d => 0 < d) ks.
Proof.
  revert ks ss ps ls. induction ds as [|d ds IH]; intros [|k ks] [|s ss] [|p ps] [|l ls]; try done.
  intros [(_ & H1 & _) H]. constructor; [lia|by eapply IH].
Qed.

(** the next position still fits *)
Lemma win_fits d k s p l x : win_ok1 d k s p l -> 0 <= x ->
  (p + d - 1 <? - p + s * x + (k - 1) * l) = negb (x <? win_out d k s p l).
Proof.
  intros (H1 & H2 & H3 & H4 & H5 & H6 & H7 & H8) Hx. unfold win_out.
  rewrite Z.mul_comm with (n := k - 1). generalize dependent (l * (k - 1)). intros lk H7 H8.
  pose proof (Z.div_mod (d + 2 * p - lk - 1) s ltac:(lia)) as Hdm.
  pose proof (Z.mod_pos_bound (d + 2 * p - lk - 1) s ltac:(lia)) as Hm.
  revert Hdm Hm. generalize ((d + 2 * p - lk - 1) / s) ((d + 2 * p - lk - 1) mod s). intros q r Hdm Hm.
  clear -Hdm Hm H3. destruct (Z.ltb_spec x (q + 1)); cbn [negb]; nia.
Qed.
Lemma win_reach d k s p l x : win_ok1 d k s p l -> 0 <= x < win_out d k s p l ->
  - p <= - p + s * x /\ - p + s * x + (k - 1) * l <= p + d - 1.
Proof.
  intros Hok Hx. pose proof (win_fits d k s p l x Hok ltac:(lia)) as Hf.
  replace (x <? win_out d k s p l) with true in Hf by lia. cbn [negb] in Hf.
  destruct Hok as (H1 & H2 & H3 & _). nia.
Qed.

Lemma win_coord_pos ds ks ss ps ls o w : win_ok ds ks ss ps ls ->
  length o = length ds -> length w = length ds ->
  win_coord ss ps ls o w = slice_pos (slice_pos (Z.opp <$> ps) ss o) ls w.
Proof.
  revert ks ss ps ls o w.
  induction ds as [|d ds IH]; intros [|k ks] [|s ss] [|p ps] [|l ls] [|x o] [|y w]; try done.
  intros [_ H] Lo Lw. unfold win_coord. cbn [zip_with slice_pos fmap list_fmap]. f_equal; [ring|].
  apply (IH _ _ _ _ o w H); [by injection Lo|by injection Lw].
Qed.
