(** * ProofIndex: index arithmetic and src/basic/index_utils.c *)
From stdpp Require Import gmap list.
From Coq Require Import ZArith Lia.
From Coq Require Import ZifyBool ZifyNat.
From Verif Require Import Base Mem Spec ModelCore ModelBasic Logic ProofCore.
Open Scope Z_scope.

Ltac Zify.zify_post_hook ::= Z.div_mod_to_equations.

(** ** Mixed radix arithmetic *)
Lemma in_box_length dims idx : in_box dims idx -> length idx = length dims.
Proof. intros H. symmetry. by eapply Forall2_length. Qed.
Lemma in_box_pos dims idx : in_box dims idx -> Forall (fun d => 0 < d) dims.
Proof. induction 1; constructor; [lia|done]. Qed.
Lemma in_box_cons d ds i is_ : in_box (d :: ds) (i :: is_) <-> 0 <= i < d /\ in_box ds is_.
Proof. unfold in_box. by rewrite Forall2_cons. Qed.

Lemma ravel_bound dims idx : in_box dims idx -> 0 <= ravel dims idx < prodZ dims.
Proof.
  induction 1 as [|d i ds is_ Hi Hb IH]; [done|].
  cbn [ravel]. rewrite prodZ_cons. nia.
Qed.

Lemma prodZ_pos_inv dims : Forall (fun d => 0 <= d) dims -> 0 < prodZ dims ->
  Forall (fun d => 0 < d) dims.
Proof.
  induction 1 as [|d ds Hd Hds IH]; intros Hp; [constructor|].
  rewrite prodZ_cons in Hp. pose proof (prodZ_nonneg ds Hds).
  constructor; [nia|]. apply IH. nia.
Qed.
Lemma unravel_length dims k : length (unravel dims k) = length dims.
Proof. revert k. induction dims; intros; cbn; [done|]. by rewrite IHdims. Qed.

Lemma unravel_in_box dims k : Forall (fun d => 0 < d) dims -> in_box dims (unravel dims k).
Proof.
  induction 1 as [|d ds Hd Hds IH]; [constructor|].
  cbn [unravel]. apply in_box_cons. split; [|done]. apply Z.mod_pos_bound. lia.
Qed.

(** The digits only depend on [k] modulo the size. *)
Lemma unravel_add dims k m : Forall (fun d => 0 < d) dims ->
  unravel dims (m * prodZ dims + k) = unravel dims k.
Proof.
  intros H. revert m. induction H as [|d ds Hd Hds IH]; intros m; [done|].
  cbn [unravel]. rewrite prodZ_cons. pose proof (prodZ_pos ds Hds) as Hp. f_equal.
  - replace (m * (d * prodZ ds) + k) with (k + (m * d) * prodZ ds) by ring.
    rewrite Z.div_add by lia. rewrite Z.mod_add by lia. done.
  - replace (m * (d * prodZ ds) + k) with ((m * d) * prodZ ds + k) by ring. apply IH.
Qed.

Lemma ravel_unravel dims k : Forall (fun d => 0 < d) dims -> 0 <= k < prodZ dims ->
  ravel dims (unravel dims k) = k.
Proof.
  intros H. revert k. induction H as [|d ds Hd Hds IH]; intros k Hk.
  - rewrite prodZ_nil in Hk. cbn. lia.
  - cbn [unravel ravel]. rewrite prodZ_cons in Hk. pose proof (prodZ_pos ds Hds) as Hp.
    assert (0 <= k / prodZ ds < d) as Hq.
    { split; [apply Z.div_pos; lia|]. apply Z.div_lt_upper_bound; lia. }
    rewrite Z.mod_small by done.
    rewrite (Z.div_mod k (prodZ ds)) at 2 by lia.
    rewrite (Z.mul_comm (prodZ ds)), unravel_add by done.
    rewrite IH by (apply Z.mod_pos_bound; lia).
    rewrite (Z.div_mod k (prodZ ds)) at 3 by lia. lia.
Qed.

Lemma unravel_ravel dims idx : in_box dims idx -> unravel dims (ravel dims idx) = idx.
Proof.
  induction 1 as [|d i ds is_ Hi Hb IH]; [done|].
  cbn [ravel unravel]. pose proof (in_box_pos _ _ Hb) as Hpos.
  pose proof (prodZ_pos ds Hpos). pose proof (ravel_bound _ _ Hb). f_equal.
  - rewrite Z.div_add_l by lia. rewrite (Z.div_small (ravel ds is_)) by lia.
    rewrite Z.add_0_r. apply Z.mod_small. lia.
  - rewrite unravel_add by done. exact IH.
Qed.

Lemma ravel_inj dims i j : in_box dims i -> in_box dims j ->
  ravel dims i = ravel dims j -> i = j.
Proof. intros Hi Hj He. rewrite <-(unravel_ravel dims i Hi), He. by apply unravel_ravel. Qed.

Lemma ravel_app dims1 dims2 i1 i2 : length i1 = length dims1 ->
  ravel (dims1 ++ dims2) (i1 ++ i2) = ravel dims1 i1 * prodZ dims2 + ravel dims2 i2.
Proof.
  revert i1. induction dims1 as [|d ds IH]; intros [|i is_] Hl; try done; cbn [ravel app].
  rewrite IH by (cbn in Hl; lia). rewrite prodZ_app. ring.
Qed.
Lemma ravel_snoc dims idx d i : length idx = length dims ->
  ravel (dims ++ [d]) (idx ++ [i]) = ravel dims idx * d + i.
Proof.
  intros H. rewrite ravel_app by done. cbn [ravel]. rewrite prodZ_cons, prodZ_nil. lia.
Qed.

Lemma unravel_app dims1 dims2 k :
  Forall (fun d => 0 < d) dims1 -> Forall (fun d => 0 < d) dims2 ->
  unravel (dims1 ++ dims2) k = unravel dims1 (k / prodZ dims2) ++ unravel dims2 k.
Proof.
  intros H1 H2. pose proof (prodZ_pos _ H2) as Hp2.
  induction H1 as [|d ds Hd Hds IH]; [done|].
  cbn [app unravel]. rewrite IH. f_equal. pose proof (prodZ_pos _ Hds).
  rewrite prodZ_app, (Z.mul_comm (prodZ ds)), Z.div_div by lia. done.
Qed.

(** ** Loops over the axes *)
Lemma drop_lookup {A} (l : list A) k x : l !! k = Some x -> drop k l = x :: drop (S k) l.
Proof. apply drop_S. Qed.

Lemma drop_box dims idx k : in_box dims idx -> in_box (drop k dims) (drop k idx).
Proof. apply Forall2_drop. Qed.
Lemma take_box dims idx k : in_box dims idx -> in_box (take k dims) (take k idx).
Proof. apply Forall2_take. Qed.

Lemma assert_coords_ok dims coords E s :
  in_box dims coords ->
  assert_coords (Z.of_nat (length dims)) dims coords (Z.of_nat (length coords)) E s = Done tt s.
Proof.
  intros Hb. pose proof (in_box_length _ _ Hb) as Hl. unfold assert_coords.
  erewrite bind_done by (apply assert_ok; lia).
  apply (for64_pure (fun _ => tt) _ _ _ (length dims)); [done|lia|].
  intros k Hk. rewrite Z.add_0_l.
  destruct (lookup_lt_is_Some_2 dims k Hk) as [d Hd].
  destruct (Forall2_lookup_l _ _ _ _ _ Hb Hd) as (c & Hc & Hcd).
  erewrite bind_done by (by apply aget_nat).
  erewrite bind_done by (apply assert_ok; lia).
  erewrite bind_done by (by apply aget_nat).
  apply assert_ok. lia.
Qed.

Lemma bind_abort {A B} (m : M A) (k : A -> M B) E s : m E s = Abort -> bind m k E s = Abort.
Proof. unfold bind. intros ->. done. Qed.

Lemma not_in_box dims coords : length coords = length dims -> ~ in_box dims coords ->
  exists k d c, dims !! k = Some d /\ coords !! k = Some c /\ ~ (0 <= c < d) /\
    forall j d' c', (j < k)%nat -> dims !! j = Some d' -> coords !! j = Some c' -> 0 <= c' < d'.
Proof.
  revert coords. induction dims as [|d ds IH]; intros [|c cs] Hl Hn; try done.
  - destruct Hn. constructor.
  - destruct (decide (0 <= c < d)) as [Hc|Hc].
    + destruct (IH cs) as (k & d' & c' & H1 & H2 & H3 & H4).
      * cbn in Hl. lia.
      * intros Hb. apply Hn. by apply in_box_cons.
      * exists (S k), d', c'. split_and!; [done|done|done|].
        intros [|j] d'' c'' Hj Hd Hc'; [naive_solver|]. eapply H4; [|done|done]. lia.
    + exists 0%nat, d, c. split_and!; [done|done|done|]. intros; lia.
Qed.

(** A loop whose first [k] steps pass and whose next one aborts *)
Lemma iter_abort {S} (x : S) E n i0 k (body : Z -> S -> M S) s :
  (k < n)%nat ->
  (forall j, (j < k)%nat -> body (i0 + Z.of_nat j) x E s = Done x s) ->
  body (i0 + Z.of_nat k) x E s = Abort ->
  iter n i0 body x E s = Abort.
Proof.
  revert i0 k. induction n as [|n IH]; intros i0 k Hk Hs Ha; [lia|]. cbn [iter].
  destruct k as [|k].
  - rewrite Z.add_0_r in Ha. by apply bind_abort.
  - erewrite bind_done.
    2:{ specialize (Hs O ltac:(lia)). by rewrite Z.add_0_r in Hs. }
    apply (IH _ k); [lia| |].
    + intros j Hj. replace (i0 + 1 + Z.of_nat j) with (i0 + Z.of_nat (Datatypes.S j)) by lia.
      apply Hs. lia.
    + by replace (i0 + 1 + Z.of_nat k) with (i0 + Z.of_nat (Datatypes.S k)) by lia.
Qed.

Lemma assert_coords_abort dims coords E s :
  ~ in_box dims coords ->
  assert_coords (Z.of_nat (length dims)) dims coords (Z.of_nat (length coords)) E s = Abort.
Proof.
  intros Hn. unfold assert_coords.
  destruct (decide (length coords = length dims)) as [Hl|Hl].
  2:{ apply bind_abort. unfold assert_.
      replace (Z.of_nat (length coords) =? Z.of_nat (length dims)) with false by lia. done. }
  erewrite bind_done by (apply assert_ok; lia).
  destruct (not_in_box dims coords Hl Hn) as (k & d & c & Hd & Hc & Hbad & Hok).
  pose proof (lookup_lt_Some _ _ _ Hd) as Hk.
  unfold for64. apply (iter_abort tt _ _ _ k).
  - lia.
  - intros j Hj. rewrite Z.add_0_l.
    destruct (lookup_lt_is_Some_2 dims j ltac:(lia)) as [d' Hd'].
    destruct (lookup_lt_is_Some_2 coords j ltac:(lia)) as [c' Hc'].
    pose proof (Hok j d' c' Hj Hd' Hc').
    erewrite bind_done by (by apply aget_nat).
    erewrite bind_done by (apply assert_ok; lia).
    erewrite bind_done by (by apply aget_nat).
    apply assert_ok. lia.
  - rewrite Z.add_0_l. erewrite bind_done by (by apply aget_nat).
    destruct (Z.leb_spec 0 c) as [H0|H0].
    + erewrite bind_done by done. erewrite bind_done by (by apply aget_nat).
      unfold assert_. replace (c <? d) with false by lia. done.
    + by apply bind_abort.
Qed.

Section index.
Context {E : env} {s : st} {p : nat} {dt : dtype} {dev : device}
  {dims order : list Z} {px : nat} {sz : nat}
  (Hv : view (heap s) p dt dev dims order px) (Hsz : (0 < sz)%nat) (Hfit : fits sz dims).

Lemma fits_drop k : 0 <= prodZ (drop k dims) <= INT64_MAX.
Proof using Hfit Hsz.
  destruct Hfit as (Hd & _ & Hb).
  pose proof (prodZ_le_max (drop k dims) ltac:(by apply Forall_drop)).
  pose proof (prodZ_max_drop dims k). pose proof (prodZ_max_pos dims). nia.
Qed.

Lemma coords_to_linidx_ok coords : in_box dims coords ->
  aitisa_coords_to_linidx (HPtr p) coords (Z.of_nat (length coords)) E s
  = Done (ravel dims coords) s.
Proof using Hv Hfit Hsz.
  intros Hb. pose proof (in_box_length _ _ Hb) as Hl. unfold aitisa_coords_to_linidx.
  erewrite bind_done by (by eapply tensor_ndim_ok).
  erewrite bind_done by (by eapply tensor_dims_ok).
  erewrite bind_done by (by apply assert_coords_ok).
  rewrite Nat2Z.id.
  erewrite bind_done.
  2:{ apply (iter_down_pure (fun k => (ravel (drop k dims) (drop k coords), prodZ (drop k dims)))).
      - by rewrite !drop_ge by lia.
      - intros k Hk. cbv beta match.
        destruct (lookup_lt_is_Some_2 dims k Hk) as [d Hd].
        destruct (Forall2_lookup_l _ _ _ _ _ Hb Hd) as (c & Hc & Hcd).
        pose proof (ravel_bound _ _ (drop_box dims coords k Hb)) as Hr.
        pose proof (ravel_bound _ _ (drop_box dims coords (S k) Hb)) as Hr'.
        pose proof (fits_drop k) as Hf. pose proof (fits_drop (S k)) as Hf'.
        rewrite (drop_lookup dims k d Hd), (drop_lookup coords k c Hc) in *.
        cbn [ravel] in *. rewrite prodZ_cons in *.
        erewrite bind_done by (by apply aget_nat).
        erewrite bind_done by (apply ck64_ok; lims; nia).
        erewrite bind_done by (apply ck64_ok; lims; nia).
        erewrite bind_done by (by apply aget_nat).
        erewrite bind_done by (apply ck64_ok; lims; nia).
        unfold ret. do 2 f_equal; [lia|]. lia. }
  cbv beta match. by rewrite !drop_0.
Qed.

Lemma coords_to_linidx_abort coords : ~ in_box dims coords ->
  aitisa_coords_to_linidx (HPtr p) coords (Z.of_nat (length coords)) E s = Abort.
Proof using Hv.
  intros Hb. unfold aitisa_coords_to_linidx.
  erewrite bind_done by (by eapply tensor_ndim_ok).
  erewrite bind_done by (by eapply tensor_dims_ok).
  apply bind_abort. by apply assert_coords_abort.
Qed.

Lemma fits_dims_pos : 0 < prodZ dims -> Forall (fun d => 0 < d) dims.
Proof using Hfit. apply prodZ_pos_inv. apply Hfit. Qed.

Lemma linidx_to_coords_ok k coords : 0 <= k < prodZ dims -> length coords = length dims ->
  aitisa_linidx_to_coords (HPtr p) k coords E s = Done (unravel dims k) s.
Proof using Hv Hfit Hsz.
  intros Hk Hl. unfold aitisa_linidx_to_coords.
  pose proof (fits_dims_pos ltac:(lia)) as Hpos.
  erewrite bind_done by (by eapply tensor_size_ok).
  erewrite bind_done by (by eapply tensor_ndim_ok).
  erewrite bind_done by (by eapply tensor_dims_ok).
  erewrite bind_done by (apply assert_ok; lia).
  erewrite bind_done by (apply assert_ok; lia).
  rewrite Nat2Z.id.
  erewrite bind_done.
  2:{ apply (iter_down_pure (fun j => (take j coords ++ unravel (drop j dims) k, prodZ (drop j dims)))).
      - rewrite take_ge, drop_ge by lia. cbn. by rewrite app_nil_r.
      - intros j Hj. cbv beta match.
        destruct (lookup_lt_is_Some_2 dims j Hj) as [d Hd].
        destruct (lookup_lt_is_Some_2 coords j ltac:(lia)) as [c Hc].
        pose proof (fits_drop j) as Hf. pose proof (fits_drop (S j)) as Hf'.
        assert (0 < d) as Hdpos by (by eapply Forall_lookup_1 in Hd; [|exact Hpos]).
        assert (0 < prodZ (drop (S j) dims)) as Hp by (apply prodZ_pos; by apply Forall_drop).
        pose proof (fits_prefixes sz dims Hsz Hfit (length dims)) as Hsmax.
        rewrite firstn_all in Hsmax.
        assert (0 <= k / prodZ (drop (S j) dims) <= k) as Hq.
        { split; [apply Z.div_pos; lia|]. apply Z.div_le_upper_bound; nia. }
        erewrite bind_done by (by apply aget_nat).
        erewrite bind_done.
        2:{ apply div64_ok; [lia|]. rewrite Z.quot_div_nonneg by lia. lims; lia. }
        rewrite Z.quot_div_nonneg by lia.
        erewrite bind_done.
        2:{ apply rem64_ok; [lia|]. rewrite Z.quot_div_nonneg by lia.
            assert (0 <= k / prodZ (drop (S j) dims) / d <= k / prodZ (drop (S j) dims)).
            { split; [apply Z.div_pos; lia|]. apply Z.div_le_upper_bound; nia. }
            lims; lia. }
        rewrite Z.rem_mod_nonneg by lia.
        erewrite bind_done.
        2:{ apply aset_nat. rewrite app_length, take_length, unravel_length, drop_length. lia. }
        rewrite (drop_lookup dims j d Hd), prodZ_cons in *.
        erewrite bind_done by (apply ck64_ok; lims; nia).
        unfold ret. f_equal. f_equal; [|lia].
        rewrite (take_S_r coords j c Hc), <-app_assoc. cbn [app unravel].
        rewrite insert_app_r_alt by (rewrite take_length; lia).
        rewrite take_length_le by lia. rewrite Nat.sub_diag. done. }
  cbv beta match. by rewrite drop_0.
Qed.

Lemma linidx_to_coords_abort k coords : ~ (0 <= k < prodZ dims) ->
  aitisa_linidx_to_coords (HPtr p) k coords E s = Abort.
Proof using Hv.
  clear dependent sz. intros Hk. unfold aitisa_linidx_to_coords.
  erewrite bind_done by (by eapply tensor_size_ok).
  erewrite bind_done by (by eapply tensor_ndim_ok).
  erewrite bind_done by (by eapply tensor_dims_ok).
  destruct (Z.leb_spec 0 k).
  - erewrite bind_done by done. apply bind_abort.
    unfold assert_. replace (k <? prodZ dims) with false by lia. done.
  - by apply bind_abort.
Qed.
End index.
