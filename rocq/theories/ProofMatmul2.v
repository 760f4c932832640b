(** * ProofMatmul2: batched matrix multiplication *)
From stdpp Require Import gmap list.
From Coq Require Import ZArith Lia Floats.SpecFloat.
From Coq Require Import ZifyBool ZifyNat.
From Verif Require Import Base Mem Spec ModelCore ModelBasic ModelMath Logic ProofCore ProofCore2 ProofCore3
  ProofKernel ProofBasic ProofIndex ProofLayout ProofBroadcast ProofKernel2 ProofSlice ProofFrame ProofMatmul.
Open Scope Z_scope.

Ltac Zify.zify_post_hook ::= Z.div_mod_to_equations.

(** ** Simulations between loops *)
Lemma iter_sim {S S'} (g : S -> S') n i0 body body' x E s y s1 :
  (forall i x s y s1, body i x E s = Done y s1 -> body' i (g x) E s = Done (g y) s1) ->
  iter n i0 body x E s = Done y s1 -> iter n i0 body' (g x) E s = Done (g y) s1.
Proof.
  intros Hb. revert i0 x s. induction n as [|n IH]; intros i0 x s; cbn [iter].
  - intros [= <- <-]. done.
  - unfold bind. destruct (body i0 x E s) as [x2 s2| | |] eqn:Hx; try done.
    apply Hb in Hx. rewrite Hx. apply IH.
Qed.
Definition cmap {S S' R R'} (g : S -> S') (h : R -> R') (c : ctl S R) : ctl S' R' :=
  match c with Next x => Next (g x) | Return r => Return (h r) end.
Lemma iter_ret_sim {S S' R R'} (g : S -> S') (h : R -> R') n i0 body body' x E s c s1 :
  (forall i x s c s1, body i x E s = Done c s1 -> body' i (g x) E s = Done (cmap g h c) s1) ->
  iter_ret n i0 body x E s = Done c s1 -> iter_ret n i0 body' (g x) E s = Done (cmap g h c) s1.
Proof.
  intros Hb. revert i0 x s. induction n as [|n IH]; intros i0 x s; cbn [iter_ret].
  - intros [= <- <-]. done.
  - unfold bind at 1. destruct (body i0 x E s) as [[x2|r] s2| | |] eqn:Hx; try done.
    + apply Hb in Hx. unfold bind. rewrite Hx. cbn [cmap]. apply IH.
    + apply Hb in Hx. unfold bind. rewrite Hx. cbn [cmap]. intros [= <- <-]. done.
Qed.

Lemma aget_app {A} (l k : list A) i x E s s1 : aget l i E s = Done x s1 -> aget (l ++ k) i E s = Done x s1.
Proof.
  unfold aget, zget, opt. destruct (i <? 0); [done|].
  destruct (l !! Z.to_nat i) as [y|] eqn:Hy; [|done]. by rewrite (lookup_app_l_Some _ _ _ _ Hy).
Qed.
Lemma aset_app {A} (l k : list A) i x E s y s1 :
  aset l i x E s = Done y s1 -> aset (l ++ k) i x E s = Done (y ++ k) s1.
Proof.
  unfold aset, check, bind. destruct ((0 <=? i) && (i <? Z.of_nat (length l))) eqn:Hi; [|done].
  intros [= <- <-]. rewrite app_length.
  replace ((0 <=? i) && (i <? Z.of_nat (length l + length k))) with true by lia.
  unfold ret. f_equal. apply insert_app_l. lia.
Qed.

(** Broadcasting prefixes of arrays is broadcasting the arrays. *)
Lemma broadcast_prefix d1 e1 n1 d2 e2 n2 out eo nout E s x out' s1 :
  aitisa_broadcast_array d1 n1 d2 n2 out nout E s = Done (x, out') s1 ->
  aitisa_broadcast_array (d1 ++ e1) n1 (d2 ++ e2) n2 (out ++ eo) nout E s = Done (x, out' ++ eo) s1.
Proof.
  unfold aitisa_broadcast_array. unfold bind at 1.
  destruct (iter_ret _ _ _ out E s) as [c s2| | |] eqn:Hc; try done. intros H.
  eapply (iter_ret_sim (fun l => l ++ eo) (fun '(x, l) => (x, l ++ eo))) in Hc.
  - erewrite bind_done by exact Hc. clear Hc. destruct c as [o2|[x2 o2]]; cbn [cmap].
    + unfold bind in H. 
      destruct (for64 _ n1 _ o2 E s2) as [o3 s3| | |] eqn:H3; try done.
      unfold bind. unfold for64 in H3 |- * at 1.
      eapply (iter_sim (fun l => l ++ eo)) in H3.
      * rewrite H3. destruct (for64 _ n2 _ o3 E s3) as [o4 s4| | |] eqn:H4; try done.
        unfold for64 in H4 |- * at 1. eapply (iter_sim (fun l => l ++ eo)) in H4.
        -- rewrite H4. injection H as <- <- <-. done.
        -- intros i l s0 y s0'. cbv beta. destruct (aget d2 _ E s0) as [b s5| | |] eqn:Hg; try done.
           rewrite (aget_app _ e2 _ _ _ _ _ Hg). apply aset_app.
      * intros i l s0 y s0'. cbv beta. destruct (aget d1 _ E s0) as [b s5| | |] eqn:Hg; try done.
        rewrite (aget_app _ e1 _ _ _ _ _ Hg). apply aset_app.
    + injection H as <- <- <-. done.
  - intros i l s0 c0 s0'. cbv beta. unfold bind.
    destruct (aget d1 _ E s0) as [a s5| | |] eqn:Hg; try done. rewrite (aget_app _ e1 _ _ _ _ _ Hg).
    destruct (aget d2 _ E s5) as [b s6| | |] eqn:Hg2; try done. rewrite (aget_app _ e2 _ _ _ _ _ Hg2).
    destruct (_ || _).
    + destruct (aset l _ _ E s6) as [l2 s7| | |] eqn:Hs; try done.
      rewrite (aset_app _ eo _ _ _ _ _ _ Hs). intros [= <- <-]. done.
    + intros [= <- <-]. done.
Qed.

(** ** Strides of a batch shape, innermost first *)
Fixpoint bs_rev (l : list Z) (st : Z) (n : nat) : list Z :=
  match n with
  | O => []
  | S n => match l with
           | [] => 0 :: bs_rev [] st n
           | d :: l => if d =? 1 then 0 :: bs_rev l st n else st :: bs_rev l (st * d) n
           end
  end.
Lemma bs_rev_length l st n : length (bs_rev l st n) = n.
Proof. revert l st. induction n as [|n IH]; intros [|d l] st; cbn; [done|done|by rewrite IH|]. destruct (d =? 1); cbn; by rewrite IH. Qed.
Lemma bs_rev_nonneg l st n : 0 <= st -> Forall (fun d => 0 < d) l -> Forall (fun x => 0 <= x) (bs_rev l st n).
Proof.
  revert l st. induction n as [|n IH]; intros l st Hst Hl; cbn; [constructor|].
  destruct Hl as [|d l Hd Hl]; [constructor; [lia|by apply IH]|].
  destruct (d =? 1); constructor; try lia; apply IH; (done || nia).
Qed.

Lemma batch_strides_ok dims suf p n E s :
  Forall (fun d => 0 < d) dims -> prodZ dims <= INT64_MAX -> (length dims <= n)%nat ->
  batch_strides (dims ++ suf) (Z.of_nat (length dims)) (arr (HPtr p) (Z.of_nat n)) (Z.of_nat n) E s
  = Done (Some <$> rev (bs_rev (rev dims) 1 n)) s.
Proof.
  intros Hpos Hmax Hlen. unfold batch_strides, for64. rewrite Z.sub_0_r, Nat2Z.id.
  unfold arr. rewrite Nat2Z.id.
  set (R := replicate n (None : option Z)).
  assert (length R = n) as HR by apply replicate_length.
  match goal with |- bind (iter _ _ ?bd _) _ _ _ = _ => set (body := bd) end.
  assert (forall m (i0 : nat) A l st, (i0 + m = n)%nat -> length A = i0 -> l = drop i0 (rev dims) ->
    0 < st -> st * prodZ l = st * prodZ l -> st * prodZ l <= INT64_MAX ->
    exists st', iter m (Z.of_nat i0) body (rev (A ++ drop i0 R), st) E s
    = Done (rev (A ++ (Some <$> bs_rev l st m)), st') s) as H.
  { intros m. induction m as [|m IH]; intros i0 A l st Hi HA Hl Hst _ Hb.
    - eexists. cbn [iter bs_rev fmap list_fmap]. rewrite drop_ge by lia. reflexivity.
    - cbn [iter]. 
      assert (Forall (fun d => 0 < d) l) as Hlp.
      { rewrite Hl. apply Forall_drop. by apply List.Forall_rev. }
      assert (forall x, aset (rev (A ++ drop i0 R)) (Z.of_nat n - 1 - Z.of_nat i0) x E s
        = Done (rev ((A ++ [x]) ++ drop (S i0) R)) s) as Hset.
      { intros x. replace (Z.of_nat n - 1 - Z.of_nat i0) with (Z.of_nat n - Z.of_nat i0 - 1) by lia.
        apply aset_right; lia. }
      destruct l as [|d l].
      + assert (length dims <= i0)%nat as Hge.
        { apply (f_equal length) in Hl. rewrite drop_length, rev_length in Hl. cbn in Hl. lia. }
        destruct (IH (S i0) (A ++ [Some 0]) [] st) as [st' Hst']; [lia|rewrite app_length; cbn; lia| |done|done|done|].
        { by rewrite drop_ge by (rewrite rev_length; lia). }
        exists st'. erewrite bind_done.
        2:{ unfold body. replace (0 <=? Z.of_nat (length dims) - 1 - Z.of_nat i0) with false by lia.
            erewrite bind_done by reflexivity. cbv beta match. erewrite bind_done by apply Hset. reflexivity. }
        replace (Z.of_nat i0 + 1) with (Z.of_nat (S i0)) by lia. rewrite Hst'.
        cbn [bs_rev fmap list_fmap]. by rewrite <-app_assoc.
      + assert (rev dims !! i0 = Some d) as Hd.
        { replace i0 with (i0 + 0)%nat by lia. rewrite <-lookup_drop, <-Hl. done. }
        pose proof (lookup_lt_Some _ _ _ Hd) as Hlt. rewrite rev_length in Hlt.
        inversion_clear Hlp as [|? ? Hd0 Hlp']. subst i0. rewrite prodZ_cons in Hb.
        pose proof (prodZ_pos _ Hlp') as Hpl.
        assert (st * d <= INT64_MAX) as Hb2 by nia.
        assert (l = drop (S (length A)) (rev dims)) as Hl'.
        { rewrite (drop_S _ d _ Hd) in Hl. by injection Hl. }
        assert (aget (dims ++ suf) (Z.of_nat (length dims) - 1 - Z.of_nat (length A)) E s = Done d s) as Hget.
        { apply aget_app. replace (Z.of_nat (length dims) - 1 - Z.of_nat (length A)) with (Z.of_nat (length dims) - Z.of_nat (length A) - 1) by lia.
          by apply aget_right. }
        destruct (Z.eqb_spec d 1) as [->|Hd1].
        * destruct (IH (S (length A)) (A ++ [Some 0]) l st) as [st' Hst']; [lia|rewrite app_length; cbn; lia|done|done|done|nia|].
          exists st'. erewrite bind_done.
          2:{ unfold body. replace (0 <=? Z.of_nat (length dims) - 1 - Z.of_nat (length A)) with true by lia.
              erewrite bind_done by (erewrite bind_done by exact Hget; reflexivity). cbv beta match.
              change (1 =? 1) with true. cbn [negb].
              erewrite bind_done by apply Hset. reflexivity. }
          replace (Z.of_nat (length A) + 1) with (Z.of_nat (S (length A))) by lia. rewrite Hst'.
          cbn [bs_rev fmap list_fmap]. change (1 =? 1) with true. cbn [fmap list_fmap]. by rewrite <-app_assoc.
        * destruct (IH (S (length A)) (A ++ [Some st]) l (st * d)) as [st' Hst']; [lia|rewrite app_length; cbn; lia|done|nia|done|nia|].
          exists st'. erewrite bind_done.
          2:{ unfold body. replace (0 <=? Z.of_nat (length dims) - 1 - Z.of_nat (length A)) with true by lia.
              erewrite bind_done by (erewrite bind_done by exact Hget; reflexivity). cbv beta match.
              replace (d =? 1) with false by lia. cbn [negb].
              erewrite bind_done by apply Hset.
              erewrite bind_done by (apply ck64_ok; unfold INT64_MIN; nia). reflexivity. }
          replace (Z.of_nat (length A) + 1) with (Z.of_nat (S (length A))) by lia. rewrite Hst'.
          cbn [bs_rev fmap list_fmap]. replace (d =? 1) with false by lia. cbn [fmap list_fmap]. by rewrite <-app_assoc. }
  destruct (H n 0%nat [] (rev dims) 1) as [st' Hst']; [lia|done|done|lia|done| |].
  { rewrite <-(prodZ_perm dims); [lia|]. apply Permutation_rev. }
  change (rev ([] ++ drop 0 R)) with (rev R) in Hst'. change (Z.of_nat 0) with 0 in Hst'. cbn [app] in Hst'.
  assert (rev R = R) as HRR by (unfold R; rewrite rev_alt; apply reverse_replicate).
  rewrite HRR in Hst'. erewrite bind_done by exact Hst'. cbv beta match. unfold ret. f_equal.
  by rewrite map_rev.
Qed.

(** ** The offset of a batch *)
Fixpoint off_rev (rd rs : list Z) (b : Z) : Z :=
  match rd, rs with
  | d :: rd, x :: rs => (b mod d) * x + off_rev rd rs (b / d)
  | _, _ => 0
  end.
Lemma off_rev_0 rd rs : off_rev rd rs 0 = 0.
Proof.
  revert rs. induction rd as [|d rd IH]; intros [|x rs]; cbn; try done. rewrite Zmod_0_l, Zdiv_0_l, IH. done.
Qed.
Lemma off_rev_nonneg rd rs b : Forall (fun d => 0 < d) rd -> Forall (fun x => 0 <= x) rs -> 0 <= b -> 0 <= off_rev rd rs b.
Proof.
  intros Hd. revert rs b. induction Hd as [|d rd Hd Hrd IH]; intros rs b Hs Hb; [done|].
  destruct Hs as [|x rs Hx Hs]; [done|]. cbn.
  pose proof (Z.mod_pos_bound b d Hd). specialize (IH rs (b / d) Hs ltac:(apply Z.div_pos; lia)). nia.
Qed.

Lemma batch_offset_ok bd suf rs1 rs2 b E s :
  Forall (fun d => 0 < d) bd -> 0 <= b <= INT64_MAX -> bd <> [] ->
  length rs1 = length bd -> length rs2 = length bd ->
  Forall (fun x => 0 <= x) rs1 -> Forall (fun x => 0 <= x) rs2 ->
  off_rev (rev bd) rs1 b <= INT64_MAX -> off_rev (rev bd) rs2 b <= INT64_MAX ->
  batch_offset (bd ++ suf) (rev rs1) (rev rs2) (Z.of_nat (length bd)) b E s
  = Done (off_rev (rev bd) rs1 b, off_rev (rev bd) rs2 b) s.
Proof.
  intros Hpos Hb Hne L1 L2 N1 N2 M1 M2. unfold batch_offset. rewrite Nat2Z.id.
  match goal with |- bind (iter_ret _ _ ?bd _) _ _ _ = _ => set (body := bd) end.
  assert (forall m (j : nat) b f1 f2, (j + m = length bd)%nat ->
    0 <= b <= INT64_MAX -> 0 <= f1 -> 0 <= f2 ->
    f1 + off_rev (drop j (rev bd)) (drop j rs1) b <= INT64_MAX ->
    f2 + off_rev (drop j (rev bd)) (drop j rs2) b <= INT64_MAX ->
    exists c, iter_ret m (Z.of_nat j) body (b, f1, f2) E s = Done c s /\
      match c with Return r => r | Next (_, g1, g2) => (g1, g2) end
      = (f1 + off_rev (drop j (rev bd)) (drop j rs1) b, f2 + off_rev (drop j (rev bd)) (drop j rs2) b)) as H.
  { intros m. induction m as [|m IH]; intros j b' f1 f2 Hj Hb' F1 F2 B1 B2.
    - eexists. split; [reflexivity|]. cbv beta match.
      rewrite (drop_ge (rev bd)) by (rewrite rev_length; lia). cbn. f_equal; lia.
    - destruct (lookup_lt_is_Some_2 (rev bd) j) as [d Hd]; [rewrite rev_length; lia|].
      destruct (lookup_lt_is_Some_2 rs1 j) as [x1 Hx1]; [lia|].
      destruct (lookup_lt_is_Some_2 rs2 j) as [x2 Hx2]; [lia|].
      assert (0 < d) as Hd0.
      { eapply (Forall_lookup_1 _ (rev bd)); [|exact Hd]. by apply List.Forall_rev. }
      pose proof (Forall_lookup_1 _ _ _ _ N1 Hx1) as Hx1'. pose proof (Forall_lookup_1 _ _ _ _ N2 Hx2) as Hx2'.
      cbv beta in Hx1', Hx2'.
      rewrite (drop_S (rev bd) d j Hd) in *. rewrite (drop_S rs1 x1 j Hx1), (drop_S rs2 x2 j Hx2) in *.
      cbn [off_rev] in *.
      pose proof (Z.mod_pos_bound b' d Hd0) as Hm.
      assert (0 <= b' / d <= INT64_MAX) as Hq.
      { split; [apply Z.div_pos; lia|]. apply Z.div_le_upper_bound; nia. }
      assert (Forall (fun d => 0 < d) (drop (S j) (rev bd))) as Hrp.
      { apply Forall_drop. by apply List.Forall_rev. }
      pose proof (off_rev_nonneg _ (drop (S j) rs1) (b' / d) Hrp ltac:(by apply Forall_drop) ltac:(lia)) as O1.
      pose proof (off_rev_nonneg _ (drop (S j) rs2) (b' / d) Hrp ltac:(by apply Forall_drop) ltac:(lia)) as O2.
      assert (body (Z.of_nat j) (b', f1, f2) E s =
        Done (if b' / d =? 0 then Return (f1 + b' mod d * x1, f2 + b' mod d * x2)
              else Next (b' / d, f1 + b' mod d * x1, f2 + b' mod d * x2)) s) as Hbody.
      { unfold body.
        erewrite bind_done.
        2:{ apply aget_app. replace (Z.of_nat (length bd) - 1 - Z.of_nat j) with (Z.of_nat (length bd) - Z.of_nat j - 1) by lia.
            by apply aget_right. }
        erewrite bind_done.
        2:{ unfold rem64. erewrite bind_done by (apply check_ok; lia).
            erewrite bind_done by (apply ck64_ok; rewrite Z.quot_div_nonneg by lia; unfold INT64_MIN; lia).
            rewrite Z.rem_mod_nonneg by lia. reflexivity. }
        erewrite bind_done.
        2:{ apply aget_Z; [lia|]. replace (Z.to_nat _) with (length rs1 - S j)%nat by lia.
            rewrite <-(rev_involutive rs1) in Hx1. rewrite rev_lookup in Hx1; rewrite ?rev_length in *; [exact Hx1|lia]. }
        erewrite bind_done by (apply ck64_ok; unfold INT64_MIN; nia).
        erewrite bind_done.
        2:{ apply aget_Z; [lia|]. replace (Z.to_nat _) with (length rs2 - S j)%nat by lia.
            rewrite <-(rev_involutive rs2) in Hx2. rewrite rev_lookup in Hx2; rewrite ?rev_length in *; [exact Hx2|lia]. }
        erewrite bind_done by (apply ck64_ok; unfold INT64_MIN; nia).
        erewrite bind_done.
        2:{ unfold div64. erewrite bind_done by (apply check_ok; lia).
            rewrite Z.quot_div_nonneg by lia. apply ck64_ok. unfold INT64_MIN; lia. }
        destruct (b' / d =? 0); done. }
      cbn [iter_ret].
      destruct (Z.eqb_spec (b' / d) 0) as [H0|H0].
      + eexists. split; [erewrite bind_done by exact Hbody; reflexivity|].
        cbv beta match. rewrite H0, !off_rev_0. f_equal; lia.
      + destruct (IH (S j) (b' / d) (f1 + b' mod d * x1) (f2 + b' mod d * x2)) as (c & Hc & Hc2);
          [lia|lia|nia|nia|lia|lia|].
        exists c. split; [|rewrite Hc2; f_equal; lia].
        erewrite bind_done by exact Hbody. cbv beta match.
        replace (Z.of_nat j + 1) with (Z.of_nat (S j)) by lia. exact Hc. }
  destruct (H (length bd) 0%nat b 0 0) as (c & Hc & Hr); [lia|lia|lia|lia|rewrite !drop_0; lia|rewrite !drop_0; lia|].
  cbn [drop] in Hr. change (Z.of_nat 0) with 0 in Hc. erewrite bind_done by exact Hc.
  rewrite !Z.add_0_l, !drop_0 in Hr. destruct c as [[[x y] z]|[x y]]; cbv beta match in Hr |- *; rewrite <-Hr; done.
Qed.

(** Offsets are the linear positions of projected coordinates. *)
Definition compat (l r : list Z) : Prop :=
  (length l <= length r)%nat /\ forall j a x, l !! j = Some a -> r !! j = Some x -> a = 1 \/ a = x.
Lemma bcast_rev_compat l k r : bcast_rev l k = Some r -> compat l r /\ compat k r.
Proof.
  revert k r. induction l as [|a l IH]; intros [|b k] r; cbn [bcast_rev].
  - intros [= <-]. split; split; (done || naive_solver).
  - intros [= <-]. split; (split; [cbn; lia|]); [naive_solver|]. intros j ? ? ? ?. right. congruence.
  - intros [= <-]. split; (split; [cbn; lia|]); [|naive_solver]. intros j ? ? ? ?. right. congruence.
  - destruct (bdim a b) as [x|] eqn:Hx; [|done]. destruct (bcast_rev l k) as [r'|] eqn:Hr; [|done].
    intros [= <-]. destruct (IH _ _ Hr) as [[L1 C1] [L2 C2]].
    assert ((a = 1 \/ a = x) /\ (b = 1 \/ b = x)) as [Ha Hb].
    { unfold bdim in Hx. destruct (Z.eqb_spec a b), (Z.eqb_spec a 1), (Z.eqb_spec b 1); naive_solver. }
    split; (split; [cbn; lia|]); intros [|j] ? ? ? ?; cbn in *; simplify_eq; eauto.
Qed.
Lemma compat_cons a l x r : compat (a :: l) (x :: r) -> (a = 1 \/ a = x) /\ compat l r.
Proof.
  intros [Hl H]. split; [by apply (H 0%nat)|]. split; [cbn in Hl; lia|]. intros j. apply (H (S j)).
Qed.

Lemma bproj_snoc dims d c x : (length dims <= length c)%nat ->
  bproj (dims ++ [d]) (c ++ [x]) = bproj dims c ++ [if d =? 1 then 0 else x].
Proof.
  intros H. unfold bproj. rewrite !app_length. cbn [length].
  replace (length c + 1 - (length dims + 1))%nat with (length c - length dims)%nat by lia.
  rewrite drop_app_le by lia. rewrite zip_with_app by (rewrite drop_length; lia). done.
Qed.
Lemma bproj_length dims c : (length dims <= length c)%nat -> length (bproj dims c) = length dims.
Proof. intros H. unfold bproj. rewrite zip_with_length, drop_length. lia. Qed.

Lemma off_rev_ravel l rd st b :
  compat l rd -> Forall (fun d => 0 < d) rd -> 
  off_rev rd (bs_rev l st (length rd)) b = st * ravel (rev l) (bproj (rev l) (unravel (rev rd) b)).
Proof.
  revert l st b. induction rd as [|d rd IH]; intros l st b HC Hpos.
  - destruct l as [|e l]; [cbn; lia|]. destruct HC as [HC _]. cbn in HC. lia.
  - inversion_clear Hpos as [|? ? Hd Hrd].
    assert (Forall (fun d => 0 < d) (rev rd)) as Hrd' by (by apply List.Forall_rev).
    destruct l as [|e l].
    + cbn [length bs_rev off_rev rev ravel]. rewrite IH; [cbn [rev ravel]; lia| |done].
      split; [cbn; lia|]. done.
    + apply compat_cons in HC as [He HC]. cbn [rev length bs_rev].
      rewrite unravel_snoc by done.
      rewrite bproj_snoc by (rewrite unravel_length, !rev_length; apply HC).
      rewrite ravel_snoc by (apply bproj_length; rewrite unravel_length, !rev_length; apply HC).
      destruct (Z.eqb_spec e 1) as [->|He1].
      * cbn [off_rev]. rewrite IH by done. lia.
      * destruct He as [-> | ->]; [done|]. cbn [off_rev]. rewrite IH by done. ring.
Qed.

Lemma bproj_in_box l r c : compat (rev l) (rev r) -> in_box r c -> Forall (fun d => 0 < d) l -> in_box l (bproj l c).
Proof.
  revert r c. induction l as [|e l IH] using rev_ind; intros r c HC Hc Hl.
  - unfold bproj. cbn. constructor.
  - induction r as [|d r _] using rev_ind.
    { destruct HC as [HC _]. rewrite !rev_length, app_length in HC. cbn in HC. lia. }
    rewrite !rev_unit in HC. apply compat_cons in HC as [He HC].
    pose proof (in_box_length _ _ Hc) as Hlen. 
    induction c as [|x c _] using rev_ind; [rewrite app_length in Hlen; cbn in Hlen; lia|].
    rewrite !app_length in Hlen. cbn in Hlen.
    apply Forall2_app_inv in Hc as [Hc Hx]; [|lia]. inversion_clear Hx as [|? ? ? ? Hx' _].
    apply Forall_app in Hl as [Hl He0]. inversion_clear He0 as [|? ? He0' _].
    pose proof HC as [HC' _]. rewrite !rev_length in HC'.
    rewrite bproj_snoc by lia. apply Forall2_app; [by eapply IH|].
    constructor; [|constructor]. destruct (Z.eqb_spec e 1); [lia|]. destruct He; [done|]. subst. lia.
Qed.

(** ** The loop over the batches *)
Section batches.
Context {E : env} {lo : nat} {base : gmap nat block} {q pd pm ps px : nat}
  {t : tcode} {dev : device} {dims : list Z}.
Let TN h s' vs := tnew (e_alloc E) lo h s' q pd pm ps px (dtype_of t) dev dims (cells t vs).
Context {p1 p2 bA tgA bB tgB : nat} {dt2 : dtype} {dev1 dev2 : device} {dims1 dims2 ord1 ord2 : list Z}
  {vA vB : list val} {exA exB : list mv}.
Context (HV1 : view base p1 (dtype_of t) dev1 dims1 ord1 bA)
        (HV2 : view base p2 dt2 dev2 dims2 ord2 bB)
        (HA : base !! bA = Some (Blk tgA (CData (cells t vA ++ exA))))
        (HB : base !! bB = Some (Blk tgB (CData (cells t vB ++ exB)))).

Lemma batches_rule {B} (s : st) (h : gmap nat block) L ws (nb m k n : nat) mat1 mat2 mat3 offs (x1 x2 : nat -> nat)
    (f g : nat -> nat -> nat -> Z -> val) (k0 : status -> M B) (Q : B -> st -> Prop) :
  alloc_all E -> hooks_ok E ->
  TN h s (replicate (length ws) (zero_val t)) -> frame (e_alloc E) L base h ->
  length ws = (nb * (m * n))%nat -> Z.of_nat (length ws) * 8 <= INT64_MAX -> 8 * Z.of_nat nb <= PTRDIFF_MAX ->
  Z.of_nat m <= INT_MAX -> Z.of_nat k <= INT_MAX -> Z.of_nat n <= INT_MAX ->
  mat3 = Z.of_nat (m * n) -> 0 <= mat1 -> 0 <= mat2 ->
  (forall b s', (b < nb)%nat -> offs (Z.of_nat b) E s' = Done (Z.of_nat (x1 b), Z.of_nat (x2 b)) s') ->
  (forall b, (b < nb)%nat -> Z.of_nat (x1 b) * mat1 * Z.of_nat (tsz t) <= INT64_MAX /\
                             Z.of_nat (x2 b) * mat2 * Z.of_nat (tsz t) <= INT64_MAX) ->
  (forall b i j y, (b < nb)%nat -> (i < m)%nat -> (j < n)%nat -> (y < k)%nat ->
     vA !! (x1 b * Z.to_nat mat1 + i * k + y)%nat = Some (f b i j (Z.of_nat y)) /\
     vB !! (x2 b * Z.to_nat mat2 + y * n + j)%nat = Some (g b i j (Z.of_nat y))) ->
  (forall b i j, (b < nb)%nat -> (i < m)%nat -> (j < n)%nat ->
     psum t (f b i j) (g b i j) k = ws !! (b * (m * n) + i * n + j)%nat) ->
  (forall h' s', TN h' s' ws -> frame (e_alloc E) L base h' -> rpos s' = rpos s -> wp (k0 SUCCESS) E s' Q) ->
  wp (bind (matmul_batches (HPtr p1) (HPtr p2) (HPtr q) (Z.of_nat nb) (Z.of_nat m) (Z.of_nat k) (Z.of_nat n)
       offs mat1 mat2 mat3) k0) E s Q.
Proof using HV1 HV2 HA HB.
  intros HAl HHk HT HF Hlen Hbytes Hnb Hm Hk Hn -> Hm1 Hm2 Hoffs Hov Hops Hws HQ.
  apply wp_bind. unfold matmul_batches.
  eapply wp_scr; [done|lia|exact HT|exact HF|]. clear HT HF. intros b1 h1 s1 HT1 HF1 Hr1 Hsub1.
  eapply wp_scr; [done|lia|exact HT1|exact HF1|]. clear HT1 HF1. intros b2 h2 s2 HT2 HF2 Hr2 Hsub2.
  eapply wp_scr; [done|lia|exact HT2|exact HF2|]. clear HT2 HF2. intros b3 h3 s3 HT3 HF3 Hr3 Hsub3.
  pose proof (frame_sub _ _ HF3) as Hb3.
  pose proof (view_mono _ _ _ _ _ _ _ _ Hb3 HV1) as Hv1. pose proof (view_mono _ _ _ _ _ _ _ _ Hb3 HV2) as Hv2.
  pose proof (view_mono _ _ _ _ _ _ _ _ (tnew_base _ _ HT3) Hv1) as Hv1'.
  pose proof (view_mono _ _ _ _ _ _ _ _ (tnew_base _ _ HT3) Hv2) as Hv2'.
  eapply wp_step; [by eapply tensor_data_ok|].
  eapply wp_step; [by eapply tensor_data_ok|].
  eapply wp_step; [by eapply tensor_data_ok, tnew_view|].
  eapply wp_step; [by eapply tensor_dtype_ok|].
  set (oA := fun b => Z.of_nat (x1 b) * mat1 * Z.of_nat (tsz t)).
  set (oB := fun b => Z.of_nat (x2 b) * mat2 * Z.of_nat (tsz t)).
  set (oC := fun b => Z.of_nat b * Z.of_nat (m * n) * Z.of_nat (tsz t)).
  assert (1 <= Z.of_nat (tsz t) <= 8) as Hsz by (destruct t; cbn; lia).
  apply wp_bind. eapply wp_mono.
  { eapply (for64_rule (fun i x s' => x = (oA <$> seq 0 i, oB <$> seq 0 i, oC <$> seq 0 i) /\ s' = s3) _ _ _ nb);
      [lia|done|].
    intros i x s' Hi [-> ->].
    destruct (Hov i Hi) as [Ho1 Ho2].
    eapply wp_step; [rewrite Z.add_0_l; by apply Hoffs|]. cbv beta match.
    cbn [dtype_of d_size].
    eapply wp_step; [apply ck64_ok; unfold INT64_MIN; nia|].
    eapply wp_step; [eapply touch_frame; [exact HT3|exact HF3|set_solver]|].
    eapply wp_step; [apply ck64_ok; unfold INT64_MIN; nia|].
    eapply wp_step; [eapply touch_frame; [exact HT3|exact HF3|set_solver]|].
    eapply wp_step.
    { apply ck64_ok. rewrite Z.add_0_l. unfold INT64_MIN. split; [nia|].
      assert (Z.of_nat i * Z.of_nat (m * n) <= Z.of_nat (length ws)); [|nia].
      rewrite Hlen. nia. }
    eapply wp_step; [eapply touch_frame; [exact HT3|exact HF3|set_solver]|].
    apply wp_ret. split; [|done]. rewrite seq_S, !fmap_app. cbn [fmap list_fmap]. rewrite Z.add_0_l. done. }
  intros x s' [-> ->]. cbv beta match.
  unfold batch_mm_template. rewrite dispatch_all_t. apply wp_bind. apply wp_bind.
  unfold batch_mm_kernel. eapply wp_mono.
  { eapply (tnew_for64 (fun b => prog (zero_val t) ws (b * (m * n))) nb); [|done|].
    { rewrite Nat.mul_0_l, prog_0. exact HT3. }
    intros b s' Hb HT' Hr'.
    assert (forall o, aget (o <$> seq 0 nb) (Z.of_nat b) E s' = Done (o b : Z) s') as Hget.
    { intros o. apply aget_Z; [lia|]. rewrite Nat2Z.id, list_lookup_fmap, lookup_seq_lt by done. done. }
    eapply wp_step; [apply Hget|]. eapply wp_step; [apply Hget|]. eapply wp_step; [apply Hget|].
    assert (b * (m * n) + m * n <= nb * (m * n))%nat as Hbb by nia.
    eapply wp_mono.
    { eapply (mm_kernel_ok (lookup_weaken _ _ _ _ HA Hb3) (lookup_weaken _ _ _ _ HB Hb3) s' ws
        (x1 b * Z.to_nat mat1) (x2 b * Z.to_nat mat2) (b * (m * n)) m k n _ _ _ (f b) (g b)).
      - exact HT'.
      - lia.
      - done.
      - done.
      - done.
      - unfold oA. rewrite Nat2Z.inj_mul, Z2Nat.id by done. done.
      - unfold oB. rewrite Nat2Z.inj_mul, Z2Nat.id by done. done.
      - unfold oC. rewrite (Nat2Z.inj_mul b). done.
      - intros i j y Hi Hj Hy. by apply Hops.
      - intros i j Hi Hj. by apply Hws. }
    intros [] s'' [HT'' Hr'']. split; [|congruence].
    replace (S b * (m * n))%nat with (b * (m * n) + m * n)%nat by lia. done. }
  intros [] s4 [HT4 Hr4]. rewrite prog_full in HT4 by lia. apply wp_ret. cbv beta.
  rewrite bool_decide_eq_true_2 by done. cbn [negb].
  eapply (wp_scr_free [] b3 (b2 :: b1 :: L)); [done|exact HT4|exact HF3|]. intros h5 s5 HT5 HF5 Hr5. cbn [app] in HF5.
  eapply (wp_scr_free [] b2 (b1 :: L)); [done|exact HT5|exact HF5|]. intros h6 s6 HT6 HF6 Hr6. cbn [app] in HF6.
  eapply (wp_scr_free [] b1 L); [done|exact HT6|exact HF6|]. intros h7 s7 HT7 HF7 Hr7. cbn [app] in HF7.
  apply wp_ret. eapply HQ; [exact HT7|exact HF7|congruence].
Qed.
End batches.

Lemma size_to_dim_ok dims (j : nat) nd E s :
  prefixes_fit dims -> (j <= length dims)%nat -> Z.of_nat (length dims) <= INT_MAX ->
  size_to_dim (Z.of_nat j) dims nd E s = Done (prodZ (take j dims)) s.
Proof.
  intros Hp Hj Hmax. unfold size_to_dim.
  rewrite (for32_pure (fun i => prodZ (take i dims)) E 0 (Z.of_nat j) j); [done|done|lia|lia|].
  intros i Hi. destruct (lookup_lt_is_Some_2 dims i) as [d Hd]; [lia|].
  erewrite bind_done by (apply aget_Z; [lia|rewrite Z.add_0_l, Nat2Z.id; exact Hd]).
  rewrite <-(prodZ_take_S _ _ _ Hd). apply ck64_ok. apply Hp.
Qed.

Lemma at_mat_app T d1 c m k (i y : nat) : valid T -> a_dims T = d1 ++ [m; k] -> in_box d1 c ->
  (i < Z.to_nat m)%nat -> (y < Z.to_nat k)%nat ->
  a_vals T !! (Z.to_nat (ravel d1 c) * (Z.to_nat m * Z.to_nat k) + i * Z.to_nat k + y)%nat
  = Some (at_ T (c ++ [Z.of_nat i; Z.of_nat y])).
Proof.
  intros HT Hd Hc Hi Hy. unfold at_. rewrite Hd, ravel_app by (by apply in_box_length).
  assert (prodZ [m; k] = m * k) as Hmk by (rewrite !prodZ_cons, prodZ_nil; lia).
  cbn [ravel]. rewrite Hmk, prodZ_cons, prodZ_nil. pose proof (ravel_bound _ _ Hc) as Hb.
  pose proof (valid_len _ HT) as Hl. rewrite Hd, prodZ_app, Hmk in Hl.
  match goal with |- _ = Some (default VU (_ !! ?X)) =>
    replace X with (Z.to_nat (ravel d1 c) * (Z.to_nat m * Z.to_nat k) + i * Z.to_nat k + y)%nat by nia end.
  apply lookup_default.
  assert (ravel d1 c * (m * k) + Z.of_nat i * k + Z.of_nat y < prodZ d1 * (m * k)); [|nia].
  assert (Z.of_nat i * k + Z.of_nat y < m * k) by nia. nia.
Qed.
Lemma at_vec_app T d1 c m (i : nat) : valid T -> a_dims T = d1 ++ [m] -> in_box d1 c ->
  (i < Z.to_nat m)%nat ->
  a_vals T !! (Z.to_nat (ravel d1 c) * Z.to_nat m + i)%nat = Some (at_ T (c ++ [Z.of_nat i])).
Proof.
  intros HT Hd Hc Hi. unfold at_. rewrite Hd, ravel_app by (by apply in_box_length).
  assert (prodZ [m] = m) as Hmk by (rewrite !prodZ_cons, prodZ_nil; lia).
  cbn [ravel]. rewrite Hmk, prodZ_nil. pose proof (ravel_bound _ _ Hc) as Hb.
  pose proof (valid_len _ HT) as Hl. rewrite Hd, prodZ_app, Hmk in Hl.
  match goal with |- _ = Some (default VU (_ !! ?X)) =>
    replace X with (Z.to_nat (ravel d1 c) * Z.to_nat m + i)%nat by nia end.
  apply lookup_default. nia.
Qed.
