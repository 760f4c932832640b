(** * ProofAuto2: filling buffers and comparing results *)
From stdpp Require Import gmap list list_numbers.
From Coq Require Import ZArith Lia Floats.SpecFloat.
From Coq Require Import ZifyBool ZifyNat.
From Verif Require Import Base Mem Spec SpecReal SpecError ModelCore ModelSample ModelAuto SpecAuto Logic ProofCore ProofCore2 ProofCore3
  ProofKernel ProofBasic ProofAuto.
Open Scope Z_scope.

Lemma natural_elem_ok t i : (Z.of_nat i + 1) * Z.of_nat (tsz t) <= 2 ^ 32 ->
  exists w, natural_elem t (Z.of_nat i) = Some w /\ natural_spec t i w.
Proof.
  intros H. pose proof (tsz_range t). destruct (is_float t) eqn:Ht.
  - apply natural_float; [done|]. nia.
  - apply natural_int; [done|]. nia.
Qed.

(** Storing the next element behind a prefix *)
Lemma storei_next s b tg t vs rest v E :
  heap s !! b = Some (Blk tg (CData (cells t vs ++ rest))) -> (tsz t <= length rest)%nat ->
  storei (HPtr b) t (Z.of_nat (length vs)) v E s
  = Done tt (upd s b (Blk tg (CData (cells t (vs ++ [v]) ++ drop (tsz t) rest)))).
Proof.
  intros Hb Hr. unfold storei, store, store_bytes.
  erewrite bind_done by (by eapply get_bytes_ok).
  rewrite encode_length.
  erewrite bind_done.
  2:{ apply check_ok. rewrite app_length, cells_length. nia. }
  erewrite set_content_ok by done. do 4 f_equal.
  assert (length (cells t vs) = Z.to_nat (Z.of_nat (length vs) * Z.of_nat (tsz t))) as Hl.
  { rewrite cells_length. nia. }
  rewrite <-Hl, take_app, drop_app_ge by lia.
  replace (_ + tsz t - _)%nat with (tsz t) by lia.
  rewrite cells_app, cells_cons, cells_nil, app_nil_r, <-app_assoc. done.
Qed.

Lemma code_tc t : tc_of (code_of t) = Some t.
Proof. by destruct t. Qed.

Lemma natural_assign_ok E s b tg l t len :
  heap s !! b = Some (Blk tg (CData l)) -> 0 <= len <= Z.of_nat (length l) -> len < UINT32_MOD ->
  exists ws, natural_assign (HPtr b) len (code_of t) E s
    = Done tt (St (<[b := Blk tg (CData (cells t ws ++ drop (length ws * tsz t) l))]> (heap s)) (ctr s) (rpos s)) /\
  length ws = Z.to_nat (len / Z.of_nat (tsz t)) /\
  forall i w, ws !! i = Some w -> natural_spec t i w.
Proof.
  intros Hb Hl Hm. pose proof (tsz_range t) as Hz. unfold natural_assign. rewrite code_tc.
  set (n := Z.to_nat (len / Z.of_nat (tsz t))).
  assert (Z.of_nat n * Z.of_nat (tsz t) <= len) as Hn.
  { unfold n. rewrite Z2Nat.id by (apply Z.div_pos; lia). pose proof (Z.mul_div_le len (Z.of_nat (tsz t)) ltac:(lia)). lia. }
  assert (wp (for64 0 (len / Z.of_nat (tsz t)) (fun i _ =>
        let* v := opt (natural_elem t i) UB_overflow in storei (HPtr b) t i v) tt) E s
    (fun _ s' => exists ws, length ws = n /\ (forall i w, ws !! i = Some w -> natural_spec t i w) /\
       s' = upd s b (Blk tg (CData (cells t ws ++ drop (length ws * tsz t) l))))) as Hw.
  { apply (for64_rule (fun k _ s' => exists ws, length ws = k /\ (forall i w, ws !! i = Some w -> natural_spec t i w) /\
       s' = upd s b (Blk tg (CData (cells t ws ++ drop (length ws * tsz t) l))))).
    - unfold n. by rewrite Z.sub_0_r.
    - exists []. split; [done|]. split; [done|]. cbn [length cells mbind list_bind Nat.mul drop app].
      symmetry. by apply upd_id.
    - intros k [] s' Hk (ws & Hlen & Hspec & ->). rewrite Z.add_0_l.
      destruct (natural_elem_ok t k) as (w & Hw & Hsp); [unfold UINT32_MOD in Hm; nia|].
      eapply wp_step; [by apply opt_ok|]. rewrite <-Hlen.
      eapply wp_intro.
      + apply storei_next with (tg := tg) (rest := drop (length ws * tsz t) l).
        * cbn. by rewrite lookup_insert.
        * rewrite drop_length. nia.
      + exists (ws ++ [w]). rewrite app_length. cbn [length]. split; [lia|]. split.
        * intros i x Hx. destruct (decide (i < length ws)%nat) as [Hi|Hi].
          -- apply Hspec. by rewrite lookup_app_l in Hx.
          -- rewrite lookup_app_r in Hx by lia. apply list_lookup_singleton_Some in Hx as [Hi' <-].
             assert (i = k) as -> by lia. done.
        * rewrite upd_upd. rewrite drop_drop. do 5 f_equal. lia. }
  apply wp_elim in Hw as ([] & s' & Hr & ws & Hlen & Hspec & ->).
  exists ws. split; [exact Hr|]. done.
Qed.

Lemma natural_assign_unknown E s p len c : tc_of c = None -> natural_assign p len c E s = Done tt s.
Proof. intros H. unfold natural_assign. by rewrite H. Qed.

(** ** The operands of a sample *)
Lemma dtypes_at t : zget aitisa_dtypes (code_of t) = Some (dtype_of t).
Proof. by destruct t. Qed.
Lemma int_to_dtype_ok t E s : int_to_dtype (code_of t) E s = Done (dtype_of t) s.
Proof. unfold int_to_dtype, aget. apply opt_ok. apply dtypes_at. Qed.

Lemma operand_len_ok dims t E s : fits (tsz t) dims ->
  operand_len dims (code_of t) E s = Done ((prodZ dims * Z.of_nat (tsz t)) mod UINT32_MOD) s.
Proof.
  intros Hf. pose proof (tsz_range t) as Hz. unfold operand_len.
  erewrite bind_done.
  2:{ apply (for64_pure (fun k => prodZ (take k dims) mod UINT32_MOD) _ _ _ (length dims)); [done|lia|].
      intros k Hk. rewrite Z.add_0_l.
      destruct (lookup_lt_is_Some_2 dims k Hk) as [d Hd].
      erewrite bind_done by (by apply aget_nat).
      pose proof (fits_prefixes (tsz t) dims ltac:(lia) Hf (S k)) as Hp.
      rewrite (take_S_r _ _ _ Hd), prodZ_app, prodZ_cons, prodZ_nil in *.
      destruct Hf as (Hd0 & _). pose proof (Forall_lookup_1 _ _ _ _ Hd0 Hd). cbn in H.
      assert (0 <= prodZ (take k dims)) by (apply prodZ_nonneg; by apply Forall_take).
      pose proof (Z.mod_pos_bound (prodZ (take k dims)) UINT32_MOD eq_refl).
      pose proof (Z.mod_le (prodZ (take k dims)) UINT32_MOD ltac:(done) eq_refl).
      erewrite bind_done by (apply ck64_ok; unfold INT64_MIN in *; nia).
      unfold ret. f_equal. rewrite Z.mul_mod_idemp_l by done. f_equal. lia. }
  rewrite firstn_all. unfold elem_size. erewrite bind_done.
  2:{ erewrite bind_done by apply int_to_dtype_ok. done. }
  unfold ret. f_equal. cbn [dtype_of d_size]. rewrite <-Z.mul_mod by done. done.
Qed.

Lemma natural_operand_ok dims t dev E s : wf s -> fits (tsz t) dims ->
  prodZ dims * Z.of_nat (tsz t) < UINT32_MOD -> alloc_all E ->
  exists p len s' ws, natural_operand dims (code_of t) E s = Done (p, len) s' /\ wf s' /\ heap s ⊆ heap s' /\
    (forall i w, ws !! i = Some w -> natural_spec t i w) /\
    supplied (heap s') (Opd dims (code_of t) (dev_type dev) p len) (AT t dev dims ws).
Proof.
  intros Hwf Hf Hm HA. unfold natural_operand.
  erewrite bind_done by (by apply operand_len_ok).
  assert (0 <= prodZ dims) as Hp0 by (apply prodZ_nonneg, Hf).
  pose proof (tsz_range t) as Hz.
  rewrite Z.mod_small by lia. set (len := prodZ dims * Z.of_nat (tsz t)) in *.
  assert (len / Z.of_nat (tsz t) = prodZ dims) as Hdiv by (apply Z.div_mul; lia).
  set (s1 := St (<[ctr s := Blk ARR (CData (replicate (Z.to_nat len) MU))]> (heap s)) (S (ctr s)) (rpos s)).
  erewrite bind_done.
  2:{ unfold new_arr. erewrite bind_done.
      2:{ unfold alloc_tag. rewrite HA, (proj2 (Z.leb_le len PTRDIFF_MAX)) by (unfold UINT32_MOD, PTRDIFF_MAX in *; lia). done. }
      done. }
  destruct (natural_assign_ok E s1 (ctr s) ARR (replicate (Z.to_nat len) MU) t len) as (ws & Hr & Hl & Hs).
  { cbn. by rewrite lookup_insert. }
  { rewrite replicate_length. lia. }
  { lia. }
  change (St _ _ _) with s1. erewrite bind_done by exact Hr.
  assert (heap s !! ctr s = None) as Hn.
  { destruct (heap s !! ctr s) eqn:Hx; [|done]. pose proof (Hwf (ctr s) ltac:(eauto)). lia. }
  eexists _, _, _, ws. split; [done|]. cbn [heap s1 ctr rpos]. rewrite insert_insert.
  split_and!.
  - intros b [x Hx]. cbn in *. destruct (decide (b = ctr s)) as [->|Hne]; [lia|].
    rewrite lookup_insert_ne in Hx by done. pose proof (Hwf b ltac:(eauto)). lia.
  - by apply insert_subseteq.
  - done.
  - cbn [x_dims x_dtype x_len x_data a_dims a_type a_vals]. split_and!; try done.
    + split; [done|]. cbn [a_vals a_dims]. lia.
    + eexists _, ARR, _. split; [done|]. by rewrite lookup_insert.
Qed.

(** ** The comparison *)
Lemma scan_run {S} (f : nat -> S) (ok : nat -> bool) E s n i0 (body : Z -> S -> M (ctl S unit)) :
  (forall k, (k < n)%nat ->
     body (i0 + Z.of_nat k) (f k) E s = Done (if ok k then Next (f (Datatypes.S k)) else Return tt) s) ->
  iter_ret n i0 body (f O) E s = Done (if forallb ok (seq 0 n) then Next (f n) else Return tt) s.
Proof.
  revert f ok i0. induction n as [|n IH]; intros f ok i0 H; [done|].
  cbn [iter_ret seq forallb].
  pose proof (H O ltac:(lia)) as H0. rewrite Z.add_0_r in H0. erewrite bind_done by exact H0.
  destruct (ok O); [|done]. cbn [andb].
  rewrite (IH (fun k => f (Datatypes.S k)) (fun k => ok (Datatypes.S k))).
  - do 2 f_equal. rewrite <-(seq_shift n 0). 
    assert (forall l, forallb ok (map Datatypes.S l) = forallb (fun k => ok (Datatypes.S k)) l) as ->; [|done].
    clear. intros l. induction l as [|x l IH]; [done|]. cbn. by rewrite IH.
  - intros k Hk. replace (i0 + 1 + Z.of_nat k) with (i0 + Z.of_nat (Datatypes.S k)) by lia. apply H. lia.
Qed.

Lemma code_inj t t' : code_of t = code_of t' -> t = t'.
Proof. by destruct t, t'. Qed.

Lemma forallb_seq (ok : nat -> bool) n :
  forallb ok (seq 0 n) = true <-> forall k, (k < n)%nat -> ok k = true.
Proof.
  rewrite forallb_forall. split; intros H k Hk; apply H; [apply in_seq|apply in_seq in Hk]; lia.
Qed.

Lemma compare_ok E s dev t same A U ra ru : valid A -> valid U ->
  shows (heap s) ra A -> shows (heap s) ru U -> a_type A = t ->
  exists b, compare dev t same ra ru E s = Done b s /\ (b = true <-> agree dev same A U).
Proof.
  intros HvA HvU (A1 & A2 & A3 & A4 & A5 & pa & ta & xa & A6 & A7)
    (U1 & U2 & U3 & U4 & U5 & pu & tu & xu & U6 & U7) Ht.
  unfold compare. rewrite A1, A3, A5, A6, U1, U2, U3, U5, U6.
  destruct (Z.eqb_spec (Z.of_nat (length (a_dims A))) (Z.of_nat (length (a_dims U)))) as [Hr|Hr]; cbn [negb].
  2:{ exists false. split; [done|]. split; [done|]. intros (_ & Hd & _). rewrite Hd in Hr. done. }
  destruct (Z.eqb_spec dev (dev_type (a_dev U))) as [Hdv|Hdv]; cbn [negb].
  2:{ exists false. split; [done|]. split; [done|]. intros (_ & _ & Hd & _). done. }
  destruct (Z.eqb_spec (code_of (a_type A)) (code_of (a_type U))) as [Hc|Hc]; cbn [negb].
  2:{ exists false. split; [done|]. split; [done|]. intros (Hd & _). by rewrite Hd in Hc. }
  apply code_inj in Hc.
  erewrite bind_done.
  2:{ apply (scan_run (fun k => prodZ (take k (a_dims A)))
        (fun k => default 0 (a_dims A !! k) =? default 0 (a_dims U !! k)) E s).
      intros k Hk. rewrite Nat2Z.id in Hk. rewrite Z.add_0_l.
      destruct (lookup_lt_is_Some_2 (a_dims A) k Hk) as [d Hd].
      destruct (lookup_lt_is_Some_2 (a_dims U) k ltac:(lia)) as [d' Hd'].
      erewrite bind_done by (by apply int_array_ok).
      erewrite bind_done by (by apply aget_nat).
      pose proof (fits_prefixes (tsz (a_type A)) (a_dims A) (tsz_pos _) (valid_fits _ HvA) (S k)) as Hp.
      assert (prodZ (take (S k) (a_dims A)) = prodZ (take k (a_dims A)) * d) as HS.
      { rewrite (take_S_r _ _ _ Hd), prodZ_app, prodZ_cons, prodZ_nil. lia. }
      rewrite HS in *.
      erewrite bind_done by (apply ck64_ok; lia).
      erewrite bind_done by (by apply int_array_ok).
      erewrite bind_done by (by apply aget_nat).
      rewrite Hd, Hd'. cbn [default from_option]. unfold id. by destruct (d =? d'). }
  rewrite Nat2Z.id, firstn_all.
  match goal with |- context [if ?c then Next _ else _] => destruct c eqn:Hdims end; cbv beta match.
  2:{ exists false. split; [done|]. split; [done|]. intros (_ & Hd & _).
      rewrite Hd in Hdims. rewrite (proj2 (forallb_seq _ _)) in Hdims; [done|]. intros. apply Z.eqb_refl. }
  assert (a_dims A = a_dims U) as Heq.
  { apply list_eq. intros k. rewrite forallb_seq in Hdims.
    destruct (decide (k < length (a_dims A))%nat) as [Hk|Hk].
    - specialize (Hdims k Hk). cbv beta in Hdims.
      destruct (lookup_lt_is_Some_2 (a_dims A) k Hk) as [d Hd].
      destruct (lookup_lt_is_Some_2 (a_dims U) k ltac:(lia)) as [d' Hd'].
      rewrite Hd, Hd' in *. cbn in Hdims. f_equal. lia.
    - rewrite !lookup_ge_None_2 by lia. done. }
  rewrite <-Heq, <-Hc, Z.eqb_refl. cbn [negb].
  pose proof (valid_len _ HvA) as HlA. pose proof (valid_len _ HvU) as HlU. rewrite <-Heq in HlU.
  rewrite <-HlA, Nat2Z.id.
  erewrite bind_done.
  2:{ apply (scan_run (fun _ => tt)
        (fun k => same (default VU (a_vals A !! k)) (default VU (a_vals U !! k))) E s).
      intros k Hk. rewrite Z.add_0_l.
      destruct (lookup_lt_is_Some_2 (a_vals A) k Hk) as [d Hd].
      destruct (lookup_lt_is_Some_2 (a_vals U) k ltac:(lia)) as [d' Hd'].
      rewrite Hc in A7. rewrite <-Ht, Hc.
      erewrite bind_done by (by eapply loadi_cells).
      erewrite bind_done by (by eapply loadi_cells).
      rewrite Hd, Hd'. cbn [default from_option]. unfold id. by destruct (same d d'). }
  exists (forallb (fun k => same (default VU (a_vals A !! k)) (default VU (a_vals U !! k))) (seq 0 (length (a_vals A)))).
  split; [by match goal with |- context [if ?c then Next _ else _] => destruct c end|].
  rewrite forallb_seq. unfold agree. split.
  - intros H. split_and!; try done. apply Forall2_same_length_lookup_2; [lia|].
    intros k x y Hx Hy. specialize (H k (lookup_lt_Some _ _ _ Hx)). cbv beta in H. by rewrite Hx, Hy in H.
  - intros (_ & _ & _ & H) k Hk.
    destruct (lookup_lt_is_Some_2 (a_vals A) k Hk) as [d Hd].
    destruct (lookup_lt_is_Some_2 (a_vals U) k ltac:(lia)) as [d' Hd'].
    rewrite Hd, Hd'. exact (Forall2_lookup_lr _ _ _ _ _ _ H Hd Hd').
Qed.

(** ** The library's part *)
Lemma create_over_keeps E s t dev dims b tg vs ex len o :
  wf s -> fits (tsz t) dims -> alloc_all E ->
  heap s !! b = Some (Blk tg (CData (cells t vs ++ ex))) ->
  Z.of_nat (length vs) = prodZ dims -> len / Z.of_nat (tsz t) = prodZ dims ->
  exists s' p,
    aitisa_create (dtype_of t) dev dims (Z.of_nat (length dims)) (HPtr b) len o E s
      = Done (SUCCESS, HPtr p) s' /\ holds (heap s') p (AT t dev dims vs) /\ keeps s s'.
Proof.
  intros Hwf Hfit Ha Hb Hlen Hl. pose proof (tsz_range t).
  assert (wp (aitisa_create (dtype_of t) dev dims (Z.of_nat (length dims)) (HPtr b) len o) E s
    (fun r s' => exists p, r = (SUCCESS, HPtr p) /\
       view (heap s') p (dtype_of t) dev dims (rowmajor (length dims)) b /\ keeps s s')) as Hw.
  { apply create_data_rule.
    - done.
    - eapply fits_prefixes; [|done]. lia.
    - by eapply fits_len.
    - eauto.
    - cbn. lia.
    - done.
    - intros s' p pd pm ps new Hnd Hh Hd Hr Hc _. exists p. split_and!; [done| |].
      + eapply (view_mono new); [rewrite Hh; apply map_union_subseteq_l|]. by apply header_map_view.
      + split; [rewrite Hh; by apply map_union_subseteq_r|]. split; [|done].
        intros c. rewrite Hh. intros [x Hx]. apply lookup_union_Some in Hx as [Hx|Hx]; [| |done].
        * apply Hr. eauto.
        * assert (c < ctr s)%nat by (apply Hwf; eauto). lia.
    - intros s' Hna. by destruct Hna. }
  apply wp_elim in Hw as (r & s' & Hr & p & -> & Hv & Hs).
  exists s', p. split_and!; try done.
  split; [done|]. exists b, tg, ex. split; [done|]. eapply lookup_weaken; [done|]. apply Hs.
Qed.

Lemma supplied_create E s x T dev o : wf s -> alloc_all E -> supplied (heap s) x T ->
  exists s' p, aitisa_create (dtype_of (a_type T)) dev (x_dims x) (Z.of_nat (length (x_dims x))) (x_data x) (x_len x) o E s
    = Done (SUCCESS, HPtr p) s' /\ holds (heap s') p (on dev T) /\ keeps s s'.
Proof.
  intros Hwf HA (H1 & H2 & (Hf & Hl) & H3 & b & tg & ex & H4 & H5). rewrite H1, H4.
  by apply (create_over_keeps E s (a_type T) dev (a_dims T) b tg (a_vals T) ex).
Qed.
Lemma supplied_mono h h' x T : h ⊆ h' -> supplied h x T -> supplied h' x T.
Proof.
  intros Hs (H1 & H2 & HT & H3 & b & tg & ex & H4 & H5). split_and!; try done; try apply HT.
  exists b, tg, ex. split; [done|]. by eapply lookup_weaken.
Qed.
Lemma shows_mono h h' r T : h ⊆ h' -> shows h r T -> shows h' r T.
Proof.
  intros Hs (H1 & H2 & H3 & H4 & H5 & b & tg & ex & H6 & H7). split_and!; try done.
  - revert H4. destruct (a_dims T); [done|]. intros (c & tc & -> & Hc). exists c, tc. split; [done|]. by eapply lookup_weaken.
  - exists b, tg, ex. split; [done|]. by eapply lookup_weaken.
Qed.
Lemma resolve_shows E s p T : holds (heap s) p T ->
  exists x r, aitisa_resolve (HPtr p) E s = Done (x, r) s /\ shows (heap s) (outcome_of r) T.
Proof.
  intros Hh. destruct (resolve_ok E s p T Hh) as (pd & px & tg & ex & H1 & H2 & H3).
  eexists _, _. split; [exact H3|]. cbn. split_and!; try done. eauto.
Qed.

Lemma keeps_trans s1 s2 s3 : keeps s1 s2 -> keeps s2 s3 -> keeps s1 s3.
Proof. intros (H1 & H2 & H3) (H4 & H5 & H6). split_and!; [by etrans|done|lia]. Qed.
Lemma created_keeps E s s' p T k : wf s -> created_k E s s' p T k -> keeps s s'.
Proof.
  intros Hwf H. split_and!; [by eapply created_sub|by eapply created_wf|].
  destruct H as (_ & new & _ & _ & _ & _ & Hc & _). done.
Qed.

(** Two operands created on [d] and the operation run on them *)
Lemma operands_run E s op x1 x2 T1 T2 T d : wf s -> alloc_all E ->
  supplied (heap s) x1 T1 -> supplied (heap s) x2 T2 -> computes E op (on d T1) (on d T2) T ->
  exists a1 a2 a x r s1 s2 s3,
    aitisa_create (dtype_of (a_type T1)) d (x_dims x1) (Z.of_nat (length (x_dims x1))) (x_data x1) (x_len x1) HUndef E s
      = Done (SUCCESS, HPtr a1) s1 /\
    aitisa_create (dtype_of (a_type T2)) d (x_dims x2) (Z.of_nat (length (x_dims x2))) (x_data x2) (x_len x2) HUndef E s1
      = Done (SUCCESS, HPtr a2) s2 /\
    op (HPtr a1) (HPtr a2) HUndef E s2 = Done (SUCCESS, HPtr a) s3 /\
    aitisa_resolve (HPtr a) E s3 = Done (x, r) s3 /\
    shows (heap s3) (outcome_of r) T /\ keeps s s3.
Proof.
  intros Hwf HA H1 H2 Hop.
  destruct (supplied_create E s x1 T1 d HUndef Hwf HA H1) as (s1 & a1 & Hr1 & Hh1 & Hk1).
  destruct (supplied_create E s1 x2 T2 d HUndef (proj1 (proj2 Hk1)) HA) as (s2 & a2 & Hr2 & Hh2 & Hk2).
  { eapply supplied_mono; [apply Hk1|done]. }
  destruct (Hop s2 a1 a2 HUndef) as (s3 & a & Hr3 & Hc).
  { apply Hk2. }
  { eapply holds_mono; [apply Hk2|done]. }
  { done. }
  destruct (resolve_shows E s3 a T (created_holds _ _ _ _ _ _ Hc)) as (x & r & Hr4 & Hs).
  exists a1, a2, a, x, r, s1, s2, s3. split_and!; try done.
  eapply keeps_trans; [exact Hk1|]. eapply keeps_trans; [exact Hk2|].
  eapply created_keeps; [apply Hk2|done].
Qed.

Lemma library_run_ok E s op x1 x2 T1 T2 T : wf s -> alloc_all E ->
  supplied (heap s) x1 T1 -> supplied (heap s) x2 T2 -> computes E op (on (Dev 0 0) T1) (on (Dev 0 0) T2) T ->
  exists r s', library_run op x1 x2 E s = Done r s' /\ shows (heap s') r T /\ keeps s s'.
Proof.
  intros Hwf HA H1 H2 Hop.
  destruct (operands_run E s op x1 x2 T1 T2 T _ Hwf HA H1 H2 Hop) as
    (a1 & a2 & a & x & r & s1 & s2 & s3 & R1 & R2 & R3 & R4 & Hs & Hk).
  exists (outcome_of r), s3. split; [|done]. unfold library_run.
  rewrite (proj1 (proj2 H1)), (proj1 (proj2 H2)).
  erewrite bind_done by apply int_to_dtype_ok. erewrite bind_done by apply int_to_dtype_ok.
  erewrite bind_done by done.
  erewrite bind_done by exact R1. cbv beta match. erewrite bind_done by exact R2. cbv beta match.
  erewrite bind_done by exact R3. cbv beta match. erewrite bind_done by exact R4. done.
Qed.

Lemma int_to_device_ok d E s : d = Dev 0 0 \/ d = Dev 1 0 -> int_to_device (dev_type d) E s = Done d s.
Proof. intros [-> | ->]; done. Qed.

Lemma itself_run_ok E s op x1 x2 T1 T2 T d : wf s -> alloc_all E -> d = Dev 0 0 \/ d = Dev 1 0 ->
  x_device x1 = dev_type d -> x_device x2 = dev_type d ->
  supplied (heap s) x1 T1 -> supplied (heap s) x2 T2 -> computes E op (on d T1) (on d T2) T ->
  exists r s', user_run (itself op) x1 x2 E s = Done r s' /\ shows (heap s') r T /\ keeps s s'.
Proof.
  intros Hwf HA Hd D1 D2 H1 H2 Hop.
  destruct (operands_run E s op x1 x2 T1 T2 T _ Hwf HA H1 H2 Hop) as
    (a1 & a2 & a & x & r & s1 & s2 & s3 & R1 & R2 & R3 & R4 & Hs & Hk).
  exists (outcome_of r), s3. split; [|done]. unfold user_run, itself. cbn [u_create u_op u_resolve].
  rewrite (proj1 (proj2 H1)), (proj1 (proj2 H2)), D1, D2.
  erewrite bind_done.
  2:{ erewrite bind_done by apply int_to_dtype_ok. erewrite bind_done by (by apply int_to_device_ok).
      erewrite bind_done by exact R1. done. }
  erewrite bind_done.
  2:{ erewrite bind_done by apply int_to_dtype_ok. erewrite bind_done by (by apply int_to_device_ok).
      erewrite bind_done by exact R2. done. }
  erewrite bind_done. 2:{ erewrite bind_done by exact R3. done. }
  erewrite bind_done by exact R4. done.
Qed.

(** ** Samples *)
Lemma sample_verdict {X} (U : user X) E s op x1 x2 dev same T1 T2 T V : wf s -> alloc_all E ->
  supplied (heap s) x1 T1 -> supplied (heap s) x2 T2 -> computes E op (on (Dev 0 0) T1) (on (Dev 0 0) T2) T ->
  valid T -> valid V ->
  (forall s1, keeps s s1 -> exists r s2, user_run U x1 x2 E s1 = Done r s2 /\ shows (heap s2) r V /\ keeps s1 s2) ->
  exists b s', auto_case op U x1 x2 dev (a_type T) same E s = Done b s' /\
    (b = true <-> agree (default (dev_type (a_dev T)) dev) same T V).
Proof.
  intros Hwf HA H1 H2 Hop HvT HvV HU.
  destruct (library_run_ok E s op x1 x2 T1 T2 T Hwf HA H1 H2 Hop) as (ra & s1 & R1 & S1 & K1).
  destruct (HU s1 K1) as (ru & s2 & R2 & S2 & K2).
  destruct (compare_ok E s2 (default (r_dev ra) dev) (a_type T) same T V ra ru HvT HvV) as (b & R3 & Hb).
  { eapply shows_mono; [apply K2|done]. }
  { done. }
  { done. }
  exists b, s2. split.
  - unfold auto_case. erewrite bind_done by exact R1. erewrite bind_done by exact R2. exact R3.
  - rewrite Hb. by rewrite (proj1 (proj2 S1)).
Qed.

Lemma same_as_self t v : val_ok t v -> same_as t v v = true <-> (is_float t = true -> finite_val v).
Proof.
  unfold same_as. destruct v as [z|f|]; cbn [val_ok].
  - intros [Hf _]. rewrite Hf. cbn. split; [done|]. intros _. apply Z.eqb_refl.
  - intros [Hf Hv]. rewrite Hf. rewrite same_float_self by done. unfold finite_val.
    split; [intros H _; eauto|]. intros H. destruct (H eq_refl) as (g & [= <-] & ?). done.
  - done.
Qed.

Lemma self_verdict E s op x1 x2 T1 T2 T : wf s -> alloc_all E ->
  x_device x1 = 0 -> x_device x2 = 0 ->
  supplied (heap s) x1 T1 -> supplied (heap s) x2 T2 -> computes E op (on (Dev 0 0) T1) (on (Dev 0 0) T2) T ->
  valid T -> init T ->
  exists b s', auto_case op (itself op) x1 x2 None (a_type T) (same_as (a_type T)) E s = Done b s' /\
    (b = true <-> (is_float (a_type T) = true -> Forall finite_val (a_vals T))).
Proof.
  intros Hwf HA D1 D2 H1 H2 Hop HvT Hi.
  destruct (sample_verdict (itself op) E s op x1 x2 None (same_as (a_type T)) T1 T2 T T) as (b & s' & Hr & Hb); try done.
  { intros s1 (K1 & K2 & K3). apply (itself_run_ok E s1 op x1 x2 T1 T2 T (Dev 0 0)); try done; [by left| |];
      (eapply supplied_mono; [exact K1|done]). }
  exists b, s'. split; [done|]. rewrite Hb. unfold agree. cbn [default from_option].
  split.
  - intros (_ & _ & _ & H) Hf. apply Forall_forall. intros v Hv. apply elem_of_list_lookup in Hv as [i Hv].
    apply (same_as_self (a_type T)); [exact (Forall_lookup_1 _ _ _ _ Hi Hv)| |done].
    exact (Forall2_lookup_lr _ _ _ _ _ _ H Hv Hv).
  - intros H. split_and!; try done. apply Forall2_same_length_lookup_2; [done|].
    intros i x y Hx Hy. rewrite Hx in Hy. injection Hy as <-.
    apply same_as_self; [exact (Forall_lookup_1 _ _ _ _ Hi Hx)|]. intros Hf. exact (Forall_lookup_1 _ _ _ _ (H Hf) Hx).
Qed.

(** A sample on a device the library does not support *)
Lemma self_stuck E s op x1 x2 T1 T2 T dev t same : wf s -> alloc_all E ->
  x_device x1 = 1 -> x_device x2 = 1 ->
  supplied (heap s) x1 T1 -> supplied (heap s) x2 T2 -> computes E op (on (Dev 0 0) T1) (on (Dev 0 0) T2) T ->
  (forall s p1 p2 o, holds (heap s) p1 (on (Dev 1 0) T1) -> holds (heap s) p2 (on (Dev 1 0) T2) ->
     exists x, refuses (op (HPtr p1) (HPtr p2) o) E s o x) ->
  auto_case op (itself op) x1 x2 dev t same E s = UB UB_uninit.
Proof.
  intros Hwf HA D1 D2 H1 H2 Hop Href.
  destruct (library_run_ok E s op x1 x2 T1 T2 T Hwf HA H1 H2 Hop) as (ra & s1 & R1 & S1 & K1).
  destruct (supplied_create E s1 x1 T1 (Dev 1 0) HUndef (proj1 (proj2 K1)) HA) as (s2 & a1 & C1 & Hh1 & K2).
  { eapply supplied_mono; [apply K1|done]. }
  destruct (supplied_create E s2 x2 T2 (Dev 1 0) HUndef (proj1 (proj2 K2)) HA) as (s3 & a2 & C2 & Hh2 & K3).
  { eapply supplied_mono; [apply K2|]. eapply supplied_mono; [apply K1|done]. }
  destruct (Href s3 a1 a2 HUndef) as (x & Hx).
  { eapply holds_mono; [apply K3|done]. }
  { done. }
  unfold auto_case. erewrite bind_done by exact R1. apply bind_UB.
  unfold user_run, itself. cbn [u_create u_op u_resolve].
  rewrite (proj1 (proj2 H1)), (proj1 (proj2 H2)), D1, D2.
  erewrite bind_done.
  2:{ erewrite bind_done by apply int_to_dtype_ok. erewrite bind_done by done.
      erewrite bind_done by exact C1. done. }
  erewrite bind_done.
  2:{ erewrite bind_done by apply int_to_dtype_ok. erewrite bind_done by done.
      erewrite bind_done by exact C2. done. }
  erewrite bind_done. 2:{ erewrite bind_done by exact Hx. done. }
  apply bind_UB. apply bind_UB. apply bind_UB. done.
Qed.
