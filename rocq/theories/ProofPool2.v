(** * ProofPool2: src/nn/pooling.c, windows, channels and the whole operation *)
From stdpp Require Import gmap list.
From Coq Require Import ZArith Lia Floats.SpecFloat.
From Coq Require Import ZifyBool ZifyNat.
From Verif Require Import Base Mem Spec SpecNN ModelCore ModelBasic ModelMath ModelNN Logic
  ProofCore ProofCore2 ProofCore3 ProofIndex ProofLayout ProofKernel ProofKernel2 ProofBasic ProofBasic2 ProofSlice
  ProofFrame ProofMatmul ProofSoftmax ProofFloat5 ProofWindow ProofPool.
Open Scope Z_scope.

Ltac Zify.zify_post_hook ::= Z.div_mod_to_equations.

Definition pstep (m : pmode) (a d : spec_float) : spec_float :=
  match m with PAvg => dadd a d | PMax => if SFltb a d then d else a | POther => a end.
Definition pfin (m : pmode) (n : Z) (a : spec_float) : spec_float :=
  match m with PAvg => ddiv a (dbl_of_Z n) | _ => a end.
(** What is written for a window; nothing in an unknown mode. *)
Definition pout (m : pmode) (t : tcode) (n : Z) (a : spec_float) : option val :=
  match m with POther => Some VU | _ => of_double t (pfin m n a) end.
Definition pool_value (m : pmode) (t : tcode) (n : Z) (vs : list val) : option val :=
  ds ← mapM (to_double t) vs; pout m t n (foldl (pstep m) fzero ds).

Lemma pool_kernel_ok m t ind pos temp v d E s :
  loadi ind t pos E s = Done v s -> to_double t v = Some d ->
  pool_kernel m t ind pos temp E s = Done (pstep m temp d) s.
Proof.
  intros Hl Hd. destruct m; cbn [pool_kernel pstep]; [| |done];
    (erewrite bind_done by exact Hl); (erewrite bind_done by (by apply opt_ok)); done.
Qed.
Lemma pool_output_ok m t outd pos temp n w E s : m <> POther ->
  pout m t n temp = Some w ->
  pool_output m t outd pos temp n E s = storei outd t pos w E s.
Proof.
  intros Hm Hw. destruct m; [| |done]; cbn [pool_output]; (erewrite bind_done by (apply opt_ok; exact Hw)); done.
Qed.

Lemma coords_lookup es k : (k < Z.to_nat (prodZ es))%nat ->
  coords es !! k = Some (unravel es (Z.of_nat k)).
Proof. intros H. unfold coords. by rewrite list_lookup_fmap, lookup_seq_lt. Qed.
Lemma coords_length es : length (coords es) = Z.to_nat (prodZ es).
Proof. unfold coords. by rewrite fmap_length, seq_length. Qed.

Section window.
Context {nb nc : Z} {sd ks ss ps ls : list Z} (Hok : win_ok sd ks ss ps ls) (Hsd : sd <> []).
Let os := win_outs sd ks ss ps ls.
Let n := length sd.
Let dims := nb :: nc :: sd.
Context {E : env} {bA tgA : nat} {t : tcode} {vA : list val} {exA : list mv}.
Context {m : pmode}.
Context (Hnn : Forall (fun d => 0 <= d) sd).

(** the elements of one window *)
Definition welem (bc : Z) (o w : list Z) : option val :=
  let x := win_coord ss ps ls o w in
  if decide (in_box sd x) then vA !! Z.to_nat (bc + ravel sd x) else None.

(** the loop state before round [k] *)
Definition wstate (f : list Z -> option val) (o : list Z) (ds : list spec_float) (k : nat) : list Z * spec_float :=
  (slice_pos (heads ps ss o) ls (unravel ks (Z.of_nat k)),
   foldl (pstep m) fzero (take (length (omap f (take k (coords ks)))) ds)).
Let wbody (head tail : list Z) (bc : Z) : list Z * spec_float -> M (ctl (list Z * spec_float * bool) status) :=
  fun '(index, temp) =>
      let* pos := pool_position (Z.of_nat n) dims (suffs dims) index bc in
      let* c := match pos with
                | Some pos => dispatch_all (dtype_of t)
                    (fun t => let* x := pool_kernel m t (HPtr bA) pos temp in ret (Next x))
                    (ret (Return NOT_SUPPORTED))
                | None => ret (Next temp)
                end in
      match c with
      | Return s => ret (Return s)
      | Next temp =>
          let* (index, go) := pool_next (Z.to_nat (Z.of_nat n)) ls head tail index in
          ret (Next ((index, temp), go))
      end.

Lemma pool_window_step s bc j ds k :
  heap s !! bA = Some (Blk tgA (CData (cells t vA ++ exA))) ->
  0 <= bc -> bc + prodZ sd <= INT64_MAX -> bc + prodZ sd <= Z.of_nat (length vA) ->
  0 <= j < prodZ os ->
  Forall2 (fun v d => to_double t v = Some d) (omap (welem bc (unravel os j)) (coords ks)) ds ->
  (k < Z.to_nat (prodZ ks))%nat ->
  let g := wstate (welem bc (unravel os j)) (unravel os j) ds in
  wbody (heads ps ss (unravel os j)) (tails ps ss ks ls (unravel os j)) bc (g k) E s
  = Done (Next (g (S k), bool_decide (S k < Z.to_nat (prodZ ks))%nat)) s.
Proof using Hok Hsd Hnn.
  intros HA Hbc Hmax Hlen Hj Hds Hk g.
  destruct (win_ok_length _ _ _ _ _ Hok) as (L1 & L2 & L3 & L4).
  pose proof (win_outs_length _ _ _ _ _ Hok) as Lo. fold os n in Lo.
  pose proof (win_ks_pos _ _ _ _ _ Hok) as Hkp. pose proof (prodZ_pos _ Hkp) as Hkpos.
  set (o := unravel os j) in *.
  assert (in_box os o) as Hbo by (apply unravel_in_box; by apply win_outs_pos).
  assert (length o = n) as Loo by (unfold o; rewrite unravel_length; lia).
  pose proof (heads_length Hok o Loo) as Lh.
  set (f := welem bc o) in *.
  set (cnt := fun k => length (omap f (take k (coords ks)))).
  assert (length (omap f (coords ks)) = length ds) as Ld by (by eapply Forall2_length).
  unfold g, wstate, wbody. fold (cnt k) (cnt (S k)). cbv beta match.
  set (w := unravel ks (Z.of_nat k)).
  assert (length w = n) as Lw by (unfold w; rewrite unravel_length; unfold n in *; lia).
  assert (slice_pos (heads ps ss o) ls w = win_coord ss ps ls o w) as Hwc.
  { symmetry. by apply (win_coord_pos _ _ _ _ _ _ _ Hok). }
  assert (length (slice_pos (heads ps ss o) ls w) = n) as Lx
    by (rewrite slice_pos_length; unfold n in *; lia).
  erewrite bind_done by (by apply pool_position_ok). rewrite Hwc.
  pose proof (coords_lookup ks k Hk) as Hck. fold w in Hck.
  assert (omap f (take (S k) (coords ks)) = omap f (take k (coords ks)) ++ option_list (f w)) as Hom.
  { rewrite (take_S_r _ _ _ Hck), omap_app. f_equal. }
  erewrite (bind_done _ _ E s (Next (foldl (pstep m) fzero (take (cnt (S k)) ds))) s).
  2:{ assert (cnt (S k) = cnt k + length (option_list (f w)))%nat as ->.
      { unfold cnt. by rewrite Hom, app_length. }
      unfold f, welem. destruct (decide (in_box sd (win_coord ss ps ls o w))) as [Hb|Hb].
      - pose proof (ravel_bound _ _ Hb) as Hrb.
        set (pos := bc + ravel sd (win_coord ss ps ls o w)) in *.
        destruct (lookup_lt_is_Some_2 vA (Z.to_nat pos)) as [v Hv]; [lia|].
        rewrite Hv. cbn [option_list length].
        assert (f w = Some v) as Hfw.
        { unfold f, welem. rewrite decide_True by done. exact Hv. }
        assert (omap f (coords ks) !! cnt k = Some v) as Hvs.
        { rewrite <-(take_drop (S k) (coords ks)), omap_app, Hom, Hfw. cbn [option_list].
          unfold cnt. rewrite <-app_assoc. rewrite lookup_app_r by lia.
          by rewrite Nat.sub_diag. }
        destruct (Forall2_lookup_l _ _ _ _ _ Hds Hvs) as (d & Hd & Hvd).
        rewrite dispatch_all_t.
        erewrite bind_done.
        2:{ eapply pool_kernel_ok; [|exact Hvd].
            replace pos with (Z.of_nat (Z.to_nat pos)) by lia. by eapply loadi_cells. }
        unfold ret. rewrite Nat.add_1_r, (take_S_r _ _ _ Hd), foldl_app. done.
      - cbn [option_list length]. by rewrite Nat.add_0_r. }
  cbv beta match. rewrite Nat2Z.id. fold (heads ps ss o). rewrite <-Hwc.
  replace n with (length ks) by (unfold n; lia).
  erewrite bind_done.
  2:{ unfold w, tails. apply pool_next_ok.
      - unfold n in *; lia.
      - lia.
      - destruct ks; [|done]. destruct sd; [done|]. cbn in L1. lia.
      - intros i h k0 l Hh Hk0 Hl. pose proof (lookup_lt_Some _ _ _ Hk0) as Hi.
        destruct (win_get _ _ _ _ _ i Hok ltac:(lia))
          as (d' & k' & s' & p' & l' & Hd' & Hk' & Hs' & Hp' & Hl' & Hok1 & He').
        rewrite Hk0 in Hk'. injection Hk' as <-. rewrite Hl in Hl'. injection Hl' as <-.
        destruct (lookup_lt_is_Some_2 o i) as [x Hx]; [unfold n in *; lia|].
        rewrite (heads_lookup _ _ _ _ _ Hp' Hs' Hx) in Hh. injection Hh as <-.
        pose proof (Forall2_lookup_lr _ _ _ _ _ _ Hbo He' Hx) as Hxe. cbv beta in Hxe.
        pose proof (win_reach _ _ _ _ _ x Hok1 Hxe) as [Hr1 Hr2].
        destruct Hok1 as (H1 & H2 & H3 & H4 & H5 & H6 & H7 & H8).
        split_and!; [lia|lia|llia|]. replace (k0 * l) with ((k0 - 1) * l + l) by ring. llia.
      - lia. }
  unfold ret. do 2 f_equal. f_equal.
  + f_equal. f_equal. f_equal. lia.
  + apply eq_true_iff_eq. rewrite bool_decide_eq_true. lia.
Qed.

Lemma wstate_0 bc j ds :
  wstate (welem bc (unravel os j)) (unravel os j) ds 0 = (heads ps ss (unravel os j), fzero).
Proof using Hok.
  clear wbody.
  destruct (win_ok_length _ _ _ _ _ Hok) as (L1 & L2 & L3 & L4).
  pose proof (win_outs_length _ _ _ _ _ Hok) as Lo. fold os n in Lo.
  pose proof (heads_length Hok (unravel os j) ltac:(rewrite unravel_length; unfold n; lia)) as Lh. fold n in Lh.
  unfold wstate. rewrite take_0. cbn [omap list_omap length take foldl]. f_equal.
  change (Z.of_nat 0) with 0. rewrite unravel_0.
  apply list_eq_same_length with n; [done|rewrite slice_pos_length; rewrite ?replicate_length; unfold n in *; lia|].
  intros i a b Hi Ha Hb.
  destruct (lookup_lt_is_Some_2 ls i) as [l Hl]; [unfold n in *; lia|].
  rewrite (slice_pos_lookup _ _ _ _ b l 0 Hb Hl) in Ha.
  - injection Ha as <-. ring.
  - rewrite lookup_replicate. split; [done|]. unfold n in *. lia.
Qed.

Lemma pool_window_ok s bc j ds :
  heap s !! bA = Some (Blk tgA (CData (cells t vA ++ exA))) ->
  0 <= bc -> bc + prodZ sd <= INT64_MAX -> bc + prodZ sd <= Z.of_nat (length vA) ->
  (Z.to_nat (prodZ ks) <= e_fuel E)%nat -> 0 <= j < prodZ os ->
  Forall2 (fun v d => to_double t v = Some d) (omap (welem bc (unravel os j)) (coords ks)) ds ->
  pool_window m (dtype_of t) (HPtr bA) (Z.of_nat n) dims (suffs dims) ls
    (heads ps ss (unravel os j)) (tails ps ss ks ls (unravel os j)) bc E s
  = Done (Next (foldl (pstep m) fzero ds)) s.
Proof using Hok Hsd Hnn.
  intros HA Hbc Hmax Hlen Hfuel Hj Hds. unfold pool_window.
  pose proof (prodZ_pos _ (win_ks_pos _ _ _ _ _ Hok)) as Hkpos.
  erewrite bind_done.
  2:{ apply (while_ret_pure (wstate (welem bc (unravel os j)) (unravel os j) ds) _ (Z.to_nat (prodZ ks)));
        [lia|done|by rewrite wstate_0|].
      intros k Hk. by apply pool_window_step. }
  unfold wstate, ret. cbv beta match. do 3 f_equal. rewrite take_ge; [done|].
  pose proof (Forall2_length _ _ _ Hds). rewrite take_ge; [lia|]. rewrite coords_length. lia.
Qed.
(** with less fuel than the window has elements the loop is still running *)
Lemma pool_window_short s bc j ds :
  heap s !! bA = Some (Blk tgA (CData (cells t vA ++ exA))) ->
  0 <= bc -> bc + prodZ sd <= INT64_MAX -> bc + prodZ sd <= Z.of_nat (length vA) ->
  (e_fuel E < Z.to_nat (prodZ ks))%nat -> 0 <= j < prodZ os ->
  Forall2 (fun v d => to_double t v = Some d) (omap (welem bc (unravel os j)) (coords ks)) ds ->
  pool_window m (dtype_of t) (HPtr bA) (Z.of_nat n) dims (suffs dims) ls
    (heads ps ss (unravel os j)) (tails ps ss ks ls (unravel os j)) bc E s
  = Diverge.
Proof using Hok Hsd Hnn.
  intros HA Hbc Hmax Hlen Hfuel Hj Hds. unfold pool_window, bind, while_ret.
  rewrite (while_ret_fuel_short (fun k x s' => x = wstate (welem bc (unravel os j)) (unravel os j) ds k /\ s' = s)
    _ (Z.to_nat (prodZ ks)) E) with (k := 0%nat); [done| |lia|by rewrite wstate_0].
  intros k x s' Hk [-> ->]. eapply wp_intro; [by apply pool_window_step|]. eauto.
Qed.
End window.

Lemma cell_bound nb nc b c N : 0 <= b < nb -> 0 <= c < nc -> 0 <= N ->
  0 <= b * nc /\ 0 <= (b * nc + c) * N /\ (b * nc + c) * N + N <= nb * (nc * N).
Proof.
  intros Hb Hc HN. assert (0 <= b * nc) as H1 by nia. split; [done|].
  split; [apply Z.mul_nonneg_nonneg; lia|].
  replace ((b * nc + c) * N + N) with ((b * nc + c + 1) * N) by ring.
  rewrite Z.mul_assoc. apply Z.mul_le_mono_nonneg_r; [done|]. nia.
Qed.

Section channel.
Context {nb nc : Z} {sd ks ss ps ls : list Z} (Hok : win_ok sd ks ss ps ls) (Hsd : sd <> []).
Let os := win_outs sd ks ss ps ls.
Let n := length sd.
Let dims := nb :: nc :: sd.
Let odims := nb :: nc :: os.
Let P := prodZ sd.
Let W := prodZ os.
Context {E : env} {bA tgA : nat} {t : tcode} {vA : list val} {exA : list mv}.
Context {m : pmode}.
Context (Hnn : Forall (fun d => 0 <= d) sd).
Context {tag lo : nat} {base : gmap nat block} {pT pd pm pst px : nat} {dev : device}.
Let TN s' vs := tnew tag lo base s' pT pd pm pst px (dtype_of t) dev odims (cells t vs).
Context (HA : base !! bA = Some (Blk tgA (CData (cells t vA ++ exA)))).
Context {ws : list val}.
Context (Hn0 : 0 <= nb) (Hn1 : 0 <= nc)
  (Hin : prodZ dims <= INT64_MAX) (HlenA : Z.of_nat (length vA) = prodZ dims)
  (Hout : prodZ odims <= INT64_MAX) (HlenW : Z.of_nat (length ws) = prodZ odims)
  (HW : W <= INT_MAX).

Lemma W_pos : 0 < W.
Proof using Hok. apply prodZ_pos. by apply win_outs_pos. Qed.
Lemma P_nonneg : 0 <= P.
Proof using Hnn. by apply prodZ_nonneg. Qed.

Let cbody (B O : Z) : list Z * list Z * Z -> M (ctl (list Z * list Z * Z * bool) status) :=
  fun '(head, tail, widx) =>
      let* r := pool_window m (dtype_of t) (HPtr bA) (Z.of_nat n) dims (suffs dims) ls head tail B in
      match r with
      | Return s => ret (Return s)
      | Next temp =>
          let* os := aget (suffs odims) (Z.of_nat n + 1) in
          let* m' := ck64 (widx * os) in
          let* opos := ck64 (m' + O) in
          dispatch_all (dtype_of t) (fun t =>
            pool_output m t (HPtr px) opos temp (prodZ ks) ;;;
            let* (head, tail, go) :=
              pool_slide (Z.to_nat (Z.of_nat n)) dims ks ss ps ls head tail in
            let* widx := ck32 (widx + 1) in
            ret (Next ((head, tail, widx), go)))
            (ret (Return NOT_SUPPORTED))
      end.
Let cstate (k : nat) : list Z * list Z * Z :=
  (heads ps ss (unravel os (Z.of_nat k)), tails ps ss ks ls (unravel os (Z.of_nat k)), Z.of_nat k).
Let windows (b c : Z) := forall j, 0 <= j < W -> exists ds w,
     Forall2 (fun v d => to_double t v = Some d)
       (omap (welem (sd := sd) (ss := ss) (ps := ps) (ls := ls) (vA := vA) ((b * nc + c) * P) (unravel os j)) (coords ks)) ds /\
     pout m t (prodZ ks) (foldl (pstep m) fzero ds) = Some w /\
     ws !! Z.to_nat ((b * nc + c) * W + j) = Some w.

Lemma pool_channel_start s b c : 0 <= b < nb -> 0 <= c < nc ->
  pool_channel m (dtype_of t) (HPtr bA) (HPtr px) (Z.of_nat n) dims (suffs dims) (suffs odims)
        ks ss ps ls (prodZ ks) b c E s
  = bind (while_ret (cbody ((b * nc + c) * P) ((b * nc + c) * W)) (cstate 0))
      (fun r => match r with Return s => ret (Return s) | Next _ => ret (Next tt) end) E s.
Proof using Hok Hsd Hnn HA Hn0 Hn1 Hin HlenA Hout HlenW HW.
  clear TN. intros Hb Hc. unfold pool_channel.
  pose proof W_pos as HWp. pose proof P_nonneg as HPn.
  assert (prodZ dims = nb * (nc * P)) as Edims by (unfold dims; by rewrite !prodZ_cons).
  assert (prodZ odims = nb * (nc * W)) as Eodims by (unfold odims; by rewrite !prodZ_cons).
  destruct (cell_bound nb nc b c P Hb Hc HPn) as (Hbn & HbP1 & HbP2).
  destruct (cell_bound nb nc b c W Hb Hc ltac:(lia)) as (_ & HbW1 & HbW2).
  assert (0 <= c * P) as HcP by nia. assert (0 <= c * W) as HcW by nia.
  assert ((b * nc + c) * P = b * (nc * P) + c * P) as EP by ring.
  assert ((b * nc + c) * W = b * (nc * W) + c * W) as EW by ring.
  assert (0 <= b * (nc * P)) as HbP by (repeat apply Z.mul_nonneg_nonneg; lia).
  assert (0 <= b * (nc * W)) as HbW by (repeat apply Z.mul_nonneg_nonneg; lia).
  pose proof (win_outs_length _ _ _ _ _ Hok) as Lo. fold os n in Lo.
  assert (forall es, suffs (nb :: nc :: es) !! 0%nat = Some (nc * prodZ es)) as S0.
  { intros es. rewrite suffs_lookup by (cbn; lia). cbn [drop]. by rewrite prodZ_cons. }
  assert (forall es, suffs (nb :: nc :: es) !! 1%nat = Some (prodZ es)) as S1.
  { intros es. rewrite suffs_lookup by (cbn; lia). done. }
  erewrite bind_done by (apply (aget_nat _ 0); apply S0).
  erewrite bind_done by (apply (aget_nat _ 1); apply S1). fold P.
  erewrite bind_done by (apply ck64_ok; llia).
  erewrite bind_done by (apply ck64_ok; llia).
  erewrite bind_done by (apply ck64_ok; llia).
  erewrite bind_done by (apply (aget_nat _ 0); apply S0).
  erewrite bind_done by (apply (aget_nat _ 1); apply S1). fold W.
  erewrite bind_done by (apply ck64_ok; llia).
  erewrite bind_done by (apply ck64_ok; llia).
  erewrite bind_done by (apply ck64_ok; llia).
  erewrite bind_done by (apply (pool_init_ok Hok)). fold os.
  rewrite <-EP, <-EW. reflexivity.
Qed.

Lemma pool_channel_step s b c k s1 : 0 <= b < nb -> 0 <= c < nc -> windows b c ->
  (Z.to_nat (prodZ ks) <= e_fuel E)%nat ->
  (k < Z.to_nat W)%nat ->
  TN s1 (prog VU ws (Z.to_nat ((b * nc + c) * W) + k)) -> rpos s1 = rpos s ->
  wp (cbody ((b * nc + c) * P) ((b * nc + c) * W) (cstate k)) E s1
    (fun r s' => exists x', r = Next (x', bool_decide (S k < Z.to_nat W)%nat) /\ x' = cstate (S k) /\
       TN s' (prog VU ws (Z.to_nat ((b * nc + c) * W) + S k)) /\ rpos s' = rpos s).
Proof using Hok Hsd Hnn HA Hn0 Hn1 Hin HlenA Hout HlenW HW.
  intros Hb Hc Hwin Hf1' Hk HT1 Hr1. 
  pose proof W_pos as HWp. pose proof P_nonneg as HPn.
  assert (prodZ dims = nb * (nc * P)) as Edims by (unfold dims; by rewrite !prodZ_cons).
  assert (prodZ odims = nb * (nc * W)) as Eodims by (unfold odims; by rewrite !prodZ_cons).
  destruct (cell_bound nb nc b c P Hb Hc HPn) as (Hbn & HbP1 & HbP2).
  destruct (cell_bound nb nc b c W Hb Hc ltac:(lia)) as (_ & HbW1 & HbW2).
  assert (0 <= c * P) as HcP by nia. assert (0 <= c * W) as HcW by nia.
  assert ((b * nc + c) * P = b * (nc * P) + c * P) as EP by ring.
  assert ((b * nc + c) * W = b * (nc * W) + c * W) as EW by ring.
  assert (0 <= b * (nc * P)) as HbP by (repeat apply Z.mul_nonneg_nonneg; lia).
  assert (0 <= b * (nc * W)) as HbW by (repeat apply Z.mul_nonneg_nonneg; lia).
  pose proof (win_outs_length _ _ _ _ _ Hok) as Lo. fold os n in Lo.

  set (B := (b * nc + c) * P) in *. set (O := (b * nc + c) * W) in *.
  unfold cbody, cstate. cbv beta match.
  destruct (Hwin (Z.of_nat k) ltac:(lia)) as (ds & w & Hds & Hw & Hws).
  eapply wp_step.
  { eapply (pool_window_ok Hok Hsd Hnn s1 B (Z.of_nat k) ds); [|done| | |done|unfold W in Hk; fold os; lia|exact Hds].
    - eapply tnew_lookup; [exact HT1|exact HA].
    - fold P. llia.
    - fold P. lia. }
  cbv beta match.
  eapply wp_step.
  { apply (aget_Z _ _ 1); [lia|]. replace (Z.to_nat (Z.of_nat n + 1)) with (S n) by lia.
    unfold odims. rewrite suffs_lookup by (cbn [length]; lia). cbn [drop].
    rewrite drop_ge by lia. done. }
  rewrite Z.mul_1_r.
  eapply wp_step; [apply ck64_ok; llia|].
  eapply wp_step; [apply ck64_ok; llia|].
  rewrite dispatch_all_t.
  assert (ws !! (Z.to_nat O + k)%nat = Some w) as Hwk.
  { rewrite <-Hws. f_equal. lia. }
  assert (length (prog VU ws (Z.to_nat O + k)) = length ws) as Lpr.
  { unfold prog. rewrite app_length, take_length, replicate_length. lia. }
  assert (exists s2, pool_output m t (HPtr px) (Z.of_nat k + O) (foldl (pstep m) fzero ds) (prodZ ks) E s1 = Done tt s2 /\
    TN s2 (prog VU ws (Z.to_nat O + S k)) /\ rpos s2 = rpos s) as (s2 & Ho & HT2 & Hr2).
  { assert (m = POther \/ m <> POther) as [Em|Hm] by (clear; destruct m; auto).
    - exists s1. rewrite Em in Hw |- *. split; [done|]. split; [|done]. injection Hw as <-.
      rewrite <-plus_n_Sm, <-(prog_step _ _ _ _ Hwk), list_insert_id; [done|].
      unfold prog. rewrite lookup_app_r; rewrite take_length; [|lia].
      apply lookup_replicate_2. apply lookup_lt_Some in Hwk. lia.
    - eexists. split.
      { rewrite (pool_output_ok _ _ _ _ _ _ w) by done.
        replace (Z.of_nat k + O) with (Z.of_nat (Z.to_nat O + k)) by lia.
        eapply tnew_storei; [exact HT1|]. rewrite Lpr. by eapply lookup_lt_Some. }
      rewrite (prog_step _ _ _ _ Hwk). split; [|done]. rewrite <-plus_n_Sm. by eapply tnew_upd. }
  eapply wp_step; [exact Ho|].
  eapply wp_step.
  { rewrite Nat2Z.id. apply (pool_slide_ok Hok); [done|]. fold os. unfold W in Hk. lia. }
  cbv beta match. fold os.
  eapply wp_step; [apply ck32_ok; llia|].
  apply wp_ret. eexists. split.
  { do 2 f_equal. fold W. apply eq_true_iff_eq. rewrite bool_decide_eq_true. lia. }
  split_and!.
  + replace (Z.of_nat (S k)) with (Z.of_nat k + 1) by lia. done.
  + exact HT2.
  + done.
Qed.

Lemma pool_channel_ok s b c :
  0 <= b < nb -> 0 <= c < nc ->
  (Z.to_nat (prodZ ks) <= e_fuel E)%nat -> (Z.to_nat W <= e_fuel E)%nat ->
  TN s (prog VU ws (Z.to_nat ((b * nc + c) * W))) ->
  windows b c ->
  wp (pool_channel m (dtype_of t) (HPtr bA) (HPtr px) (Z.of_nat n) dims (suffs dims) (suffs odims)
        ks ss ps ls (prodZ ks) b c) E s
     (fun r s' => r = Next tt /\ TN s' (prog VU ws (Z.to_nat ((b * nc + c) * W + W))) /\ rpos s' = rpos s).
Proof using Hok Hsd Hnn HA Hn0 Hn1 Hin HlenA Hout HlenW HW.
  intros Hb Hc Hf1 Hf2 HT Hwin. pose proof W_pos as HWp. unfold wp. rewrite pool_channel_start by done.
  change (wp (bind (while_ret (cbody ((b * nc + c) * P) ((b * nc + c) * W)) (cstate 0))
      (fun r => match r with Return s => ret (Return s) | Next _ => ret (Next tt) end)) E s
      (fun r s' => r = Next tt /\ TN s' (prog VU ws (Z.to_nat ((b * nc + c) * W + W))) /\ rpos s' = rpos s)).
  apply wp_bind. eapply wp_mono.
  - apply (while_ret_rule (fun k x s' => x = cstate k /\
      TN s' (prog VU ws (Z.to_nat ((b * nc + c) * W) + k)) /\ rpos s' = rpos s) _ (Z.to_nat W)); [lia|done| |].
    { split_and!; [done|by rewrite Nat.add_0_r|done]. }
    intros k x s1 Hk (-> & HT1 & Hr1). by apply pool_channel_step.
  - intros r s1 (x & -> & -> & HT1 & Hr1). apply wp_ret. split_and!; [done| |done].
    assert (0 <= (b * nc + c) * W) by (repeat first [apply Z.mul_nonneg_nonneg|apply Z.add_nonneg_nonneg]; lia).
    replace (Z.to_nat ((b * nc + c) * W + W)) with (Z.to_nat ((b * nc + c) * W) + Z.to_nat W)%nat by lia. done.
Qed.
End channel.

Section channel_short.
Context {nb nc : Z} {sd ks ss ps ls : list Z} (Hok : win_ok sd ks ss ps ls) (Hsd : sd <> []).
Let os := win_outs sd ks ss ps ls.
Let n := length sd.
Let dims := nb :: nc :: sd.
Let odims := nb :: nc :: os.
Let P := prodZ sd.
Let W := prodZ os.
Context {E : env} {bA tgA : nat} {t : tcode} {vA : list val} {exA : list mv}.
Context {m : pmode}.
Context (Hnn : Forall (fun d => 0 <= d) sd).
Context {tag lo : nat} {base : gmap nat block} {pT pd pm pst px : nat} {dev : device}.
Let TN s' vs := tnew tag lo base s' pT pd pm pst px (dtype_of t) dev odims (cells t vs).
Context (HA : base !! bA = Some (Blk tgA (CData (cells t vA ++ exA)))).
Context {ws : list val}.
Context (Hn0 : 0 <= nb) (Hn1 : 0 <= nc)
  (Hin : prodZ dims <= INT64_MAX) (HlenA : Z.of_nat (length vA) = prodZ dims)
  (Hout : prodZ odims <= INT64_MAX) (HlenW : Z.of_nat (length ws) = prodZ odims)
  (HW : W <= INT_MAX).
Lemma pool_channel_short s :
  0 < nb -> 0 < nc ->
  TN s (replicate (length ws) VU) ->
  (forall j, 0 <= j < W -> exists ds w,
     Forall2 (fun v d => to_double t v = Some d)
       (omap (welem (sd := sd) (ss := ss) (ps := ps) (ls := ls) (vA := vA) ((0 * nc + 0) * P) (unravel os j)) (coords ks)) ds /\
     pout m t (prodZ ks) (foldl (pstep m) fzero ds) = Some w /\
     ws !! Z.to_nat ((0 * nc + 0) * W + j) = Some w) ->
  (e_fuel E < Z.to_nat (prodZ ks) \/ e_fuel E < Z.to_nat W)%nat ->
  pool_channel m (dtype_of t) (HPtr bA) (HPtr px) (Z.of_nat n) dims (suffs dims) (suffs odims)
        ks ss ps ls (prodZ ks) 0 0 E s = Diverge.
Proof using Hok Hsd Hnn HA Hn0 Hn1 Hin HlenA Hout HlenW HW.
  intros Hb Hc HT Hwin Hfuel.
  erewrite (pool_channel_start Hok Hsd Hnn HA Hn0 Hn1 Hin HlenA Hout HlenW HW s 0 0) by lia.
  unfold bind. fold os dims odims n P W.
  match goal with |- match ?w with _ => _ end = _ => enough (w = Diverge) as -> by done end.
  unfold while_ret.
  destruct (decide (e_fuel E < Z.to_nat (prodZ ks))%nat) as [Hlt|Hge].
  - pose proof (prodZ_pos _ (win_outs_pos _ _ _ _ _ Hok)) as HWp. fold os W in HWp.
    destruct (Hwin 0 ltac:(lia)) as (ds & w & Hds & _).
    assert (pool_window m (dtype_of t) (HPtr bA) (Z.of_nat n) dims (suffs dims) ls
      (heads ps ss (unravel os (Z.of_nat 0))) (tails ps ss ks ls (unravel os (Z.of_nat 0)))
      ((0 * nc + 0) * P) E s = Diverge) as HD.
    { eapply (pool_window_short Hok Hsd Hnn s _ (Z.of_nat 0) ds); try done.
      + eapply tnew_lookup; [exact HT|exact HA].
      + destruct (cell_bound nb nc 0 0 P ltac:(lia) ltac:(lia) ltac:(by apply prodZ_nonneg)) as (_ & _ & HbP2).
        unfold dims in Hin. rewrite !prodZ_cons in Hin. fold P in Hin |- *. lia.
      + destruct (cell_bound nb nc 0 0 P ltac:(lia) ltac:(lia) ltac:(by apply prodZ_nonneg)) as (_ & _ & HbP2).
        unfold dims in HlenA. rewrite !prodZ_cons in HlenA. fold P in HlenA |- *. lia. }
    destruct (e_fuel E) as [|fuel] eqn:Hfu; [done|]. cbn [while_ret_fuel].
    unfold bind. by rewrite HD.
  - assert (e_fuel E < Z.to_nat W)%nat as Hlt by lia.
    apply (while_ret_fuel_short (fun k x s' =>
      x = (heads ps ss (unravel os (Z.of_nat k)), tails ps ss ks ls (unravel os (Z.of_nat k)), Z.of_nat k) /\
      TN s' (prog VU ws (Z.to_nat ((0 * nc + 0) * W) + k)) /\ rpos s' = rpos s) _ (Z.to_nat W) E) with (k := 0%nat).
    + intros k x s1 Hk (-> & HT1 & Hr1).
      eapply (pool_channel_step Hok Hsd Hnn HA Hn0 Hn1 Hin HlenA Hout HlenW HW s 0 0); try done; lia.
    + lia.
    + split_and!; [done| |done]. replace (Z.to_nat ((0 * nc + 0) * W) + 0)%nat with 0%nat by lia.
      by rewrite prog_0.
Qed.
End channel_short.

Section images.
Context {nb nc : Z} {sd ks ss ps ls : list Z} (Hok : win_ok sd ks ss ps ls) (Hsd : sd <> []).
Let os := win_outs sd ks ss ps ls.
Let n := length sd.
Let dims := nb :: nc :: sd.
Let odims := nb :: nc :: os.
Let P := prodZ sd.
Let W := prodZ os.
Context {E : env} {bA tgA : nat} {t : tcode} {vA : list val} {exA : list mv}.
Context {m : pmode}.
Context (Hnn : Forall (fun d => 0 <= d) sd).
Context {tag lo : nat} {base : gmap nat block} {pT pd pm pst px : nat} {dev : device}.
Let TN s' vs := tnew tag lo base s' pT pd pm pst px (dtype_of t) dev odims (cells t vs).
Context (HA : base !! bA = Some (Blk tgA (CData (cells t vA ++ exA)))).
Context {ws : list val}.
Context (Hn0 : 0 <= nb) (Hn1 : 0 <= nc)
  (Hin : prodZ dims <= INT64_MAX) (HlenA : Z.of_nat (length vA) = prodZ dims)
  (Hout : prodZ odims <= INT64_MAX) (HlenW : Z.of_nat (length ws) = prodZ odims)
  (HW : W <= INT_MAX) (Hf1 : (Z.to_nat (prodZ ks) <= e_fuel E)%nat) (Hf2 : (Z.to_nat W <= e_fuel E)%nat).

(** all channels of all images *)
Lemma pool_images_ok s pi pt ph :
  is_Some (base !! pi) -> is_Some (base !! pt) -> is_Some (base !! ph) ->
  TN s (replicate (length ws) VU) ->
  (forall b c j, 0 <= b < nb -> 0 <= c < nc -> 0 <= j < W -> exists ds w,
     Forall2 (fun v d => to_double t v = Some d)
       (omap (welem (sd := sd) (ss := ss) (ps := ps) (ls := ls) (vA := vA) ((b * nc + c) * P) (unravel os j)) (coords ks)) ds /\
     pout m t (prodZ ks) (foldl (pstep m) fzero ds) = Some w /\
     ws !! Z.to_nat ((b * nc + c) * W + j) = Some w) ->
  wp (iter_ret (Z.to_nat nb) 0 (fun s _ =>
            touch (HPtr pi) ;;; touch (HPtr pt) ;;; touch (HPtr ph) ;;;
            iter_ret (Z.to_nat nc) 0 (fun c _ =>
              pool_channel m (dtype_of t) (HPtr bA) (HPtr px) (Z.of_nat n) dims (suffs dims) (suffs odims)
                ks ss ps ls (prodZ ks) s c) tt) tt) E s
     (fun r s' => r = Next tt /\ TN s' ws /\ rpos s' = rpos s).
Proof using Hok Hsd Hnn HA Hn0 Hn1 Hin HlenA Hout HlenW HW Hf1 Hf2.
  intros Hpi Hpt Hph HT Hwin.
  pose proof (prodZ_pos _ (win_outs_pos _ _ _ _ _ Hok)) as HWp. fold os W in HWp.
  assert (prodZ odims = nb * (nc * W)) as Eodims by (unfold odims; by rewrite !prodZ_cons).
  assert (forall p s', is_Some (base !! p) -> forall vs, TN s' vs -> touch (HPtr p) E s' = Done tt s') as Htouch.
  { intros p s' [x Hx] vs HT'. eapply touch_ok. eapply tnew_lookup; [exact HT'|exact Hx]. }
  eapply wp_mono.
  - apply (iter_ret_rule (fun b (_ : unit) s' =>
      TN s' (prog VU ws (Z.to_nat (Z.of_nat b * nc * W))) /\ rpos s' = rpos s)).
    { split; [|done]. change (Z.of_nat 0) with 0. rewrite !Z.mul_0_l, prog_0. done. }
    intros b [] s1 Hb [HT1 Hr1]. rewrite Z.add_0_l.
    eapply wp_step; [by eapply Htouch|].
    eapply wp_step; [by eapply Htouch|].
    eapply wp_step; [by eapply Htouch|].
    eapply wp_mono.
    + apply (iter_ret_rule (fun c (_ : unit) s' =>
        TN s' (prog VU ws (Z.to_nat ((Z.of_nat b * nc + Z.of_nat c) * W))) /\ rpos s' = rpos s)).
      { split; [|done]. by rewrite Z.add_0_r. }
      intros c [] s2 Hc [HT2 Hr2]. rewrite Z.add_0_l.
      eapply wp_mono.
      * eapply (pool_channel_ok Hok Hsd Hnn HA Hn0 Hn1 Hin HlenA Hout HlenW HW); [lia|lia|done|done|exact HT2|]. intros j Hj. apply Hwin; [lia|lia|done].
      * intros r s3 (-> & HT3 & Hr3). exists tt. split; [done|]. split; [|congruence].
        replace ((Z.of_nat b * nc + Z.of_nat (S c)) * W) with ((Z.of_nat b * nc + Z.of_nat c) * W + W)
          by (rewrite Nat2Z.inj_succ; ring). done.
    + intros r s2 ([] & -> & HT2 & Hr2). exists tt. split; [done|]. split; [|done].
      replace (Z.of_nat (S b) * nc * W) with ((Z.of_nat b * nc + Z.of_nat (Z.to_nat nc)) * W)
        by (rewrite Nat2Z.inj_succ, Z2Nat.id by lia; ring). done.
  - intros r s1 ([] & -> & HT1 & Hr1). split; [done|]. split; [|done].
    rewrite prog_full in HT1; [done|]. rewrite Z2Nat.id by lia.
    rewrite <-Z.mul_assoc, <-Eodims. lia.
Qed.
End images.

Lemma omap_ext_eq {A B} (f g : A -> option B) (l : list A) : (forall x, f x = g x) -> omap f l = omap g l.
Proof.
  intros H. induction l as [|x l IH]; [done|]. cbn [omap list_omap]. rewrite H. by rewrite IH.
Qed.

(** the elements of the window at [o], as the loop reads them *)
Lemma window_elems T nb nc sd ks ss ps ls b c o :
  valid T -> a_dims T = nb :: nc :: sd -> 0 <= b < nb -> 0 <= c < nc ->
  window T ks ss ps ls b c o
  = omap (welem (sd := sd) (ss := ss) (ps := ps) (ls := ls) (vA := a_vals T) ((b * nc + c) * prodZ sd) o) (coords ks).
Proof.
  intros HT Hd Hb Hc. unfold window. apply omap_ext_eq. intros w. cbv zeta.
  unfold welem. rewrite Hd. change (drop 2 (nb :: nc :: sd)) with sd.
  destruct (decide (in_box sd (win_coord ss ps ls o w))) as [Hx|Hx]; [|done].
  unfold at_. rewrite Hd.
  assert (in_box (nb :: nc :: sd) (b :: c :: win_coord ss ps ls o w)) as Hbox
    by (constructor; [done|]; constructor; done).
  pose proof (ravel_bound _ _ Hbox) as Hrb. pose proof (valid_len _ HT) as Hlen. rewrite Hd in Hlen.
  assert (ravel (nb :: nc :: sd) (b :: c :: win_coord ss ps ls o w)
          = (b * nc + c) * prodZ sd + ravel sd (win_coord ss ps ls o w)) as Hr.
  { cbn [ravel]. rewrite prodZ_cons. ring. }
  rewrite <-Hr. destruct (lookup_lt_is_Some_2 (a_vals T) (Z.to_nat (ravel (nb :: nc :: sd)
    (b :: c :: win_coord ss ps ls o w)))) as [v Hv]; [lia|]. by rewrite Hv.
Qed.

(** the size of a window *)
Lemma window_size_ok ks E s n : Forall (fun d => 0 < d) ks -> prodZ ks <= INT64_MAX ->
  n = Z.of_nat (length ks) ->
  for64 0 n (fun i r => let* k := aget ks i in ck64 (r * k)) 1 E s = Done (prodZ ks) s.
Proof.
  intros Hp Hmax ->.
  rewrite (for64_pure (fun k => prodZ (take k ks)) _ _ _ (length ks)); [by rewrite take_ge|done|lia|].
  intros k Hk. rewrite Z.add_0_l. destruct (lookup_lt_is_Some_2 ks k Hk) as [d Hd].
  erewrite bind_done by (by apply aget_nat). rewrite (prodZ_take_S _ _ _ Hd). apply ck64_ok.
  rewrite <-(prodZ_take_S _ _ _ Hd).
  assert (0 < prodZ (take (S k) ks)) by (apply prodZ_pos; by apply Forall_take).
  assert (prodZ ks = prodZ (take (S k) ks) * prodZ (drop (S k) ks)) as He.
  { by rewrite <-prodZ_app, take_drop. }
  assert (0 < prodZ (drop (S k) ks)) by (apply prodZ_pos; by apply Forall_drop).
  split; [llia|]. nia.
Qed.

Section create.
Context {E : env} {s : st} {p px : nat} {dt : dtype} {dev : device} {nb nc : Z} {sd ks ss ps ls : list Z}
  {order : list Z}.
Let os := win_outs sd ks ss ps ls.
Context (Hv : view (heap s) p dt dev (nb :: nc :: sd) order px) (Hok : win_ok sd ks ss ps ls).
Lemma pooling_create_ok o :
  pooling_create_output (HPtr p) ks ss ps ls o E s
  = aitisa_create dt dev (nb :: nc :: os) (Z.of_nat (length (nb :: nc :: os))) HNull 0 o E s.
Proof using Hv Hok.
  pose proof (win_outs_length _ _ _ _ _ Hok) as Lo. fold os in Lo.
  unfold pooling_create_output.
  erewrite bind_done by (by eapply tensor_ndim_ok).
  erewrite bind_done by (by eapply tensor_dims_ok).
  erewrite bind_done by (by apply (aget_nat _ 0)).
  erewrite bind_done by (by apply (aget_nat _ 1)).
  erewrite bind_done.
  2:{ apply (for64_pure (fun k => nb :: nc :: take k os) _ _ _ (length sd)); [done|cbn [length]; lia|].
      intros i Hi. destruct (win_get _ _ _ _ _ i Hok Hi)
        as (d & k & s' & p' & l & Hd & Hk & Hs & Hp & Hl & Hok1 & Ho).
      replace (2 + Z.of_nat i) with (Z.of_nat (S (S i))) by lia.
      erewrite bind_done by (by apply aget_nat).
      replace (Z.of_nat (S (S i)) - 2) with (Z.of_nat i) by lia.
      erewrite bind_done by (by apply aget_nat).
      erewrite bind_done by (by apply aget_nat).
      erewrite bind_done by (by apply aget_nat).
      erewrite bind_done by (by apply aget_nat).
      erewrite bind_done by (by apply pooling_extent_ok).
      unfold ret. fold os in Ho. rewrite (take_S_r _ _ _ Ho). done. }
  erewrite bind_done by (by eapply tensor_dtype_ok).
  erewrite bind_done by (by eapply tensor_device_ok).
  rewrite take_ge by lia. cbn [length]. by rewrite Lo.
Qed.
End create.

(** the check that every window fits *)
Lemma pool_check_ok nb nc sd ks ss ps ls n E s : win_ok sd ks ss ps ls -> n = length sd ->
  iter_ret n 0 (fun i _ =>
      let* k := aget ks i in
      let* dil := aget ls i in
      let* a := ck32 (k - 1) in
      let* a := ck32 (a * dil) in
      let* a := ck32 (a + 1) in
      let* p := aget ps i in
      let* b := ck32 (2 * p) in
      let* d := aget (nb :: nc :: sd) (i + 2) in
      let* b := ck64 (b + d) in
      if b <? a then ret (Return INVALID_ARGUMENT) else ret (Next tt)) tt E s = Done (Next tt) s.
Proof.
  intros Hok ->. apply (iter_ret_pure (fun _ => tt)); [done|]. intros i Hi. rewrite Z.add_0_l.
  destruct (win_get _ _ _ _ _ i Hok Hi) as (d & k & s' & p' & l & Hd & Hk & Hs & Hp & Hl & Hok1 & Ho).
  destruct Hok1 as (H1 & H2 & H3 & H4 & H5 & H6 & H7 & H8).
  assert (0 <= (k - 1) * l) as Hkl by nia. assert (k - 1 <= (k - 1) * l) by nia.
  rewrite Z.mul_comm in H7, H8.
  erewrite bind_done by (by apply aget_nat).
  erewrite bind_done by (by apply aget_nat).
  erewrite bind_done by (apply ck32_ok; llia).
  erewrite bind_done by (apply ck32_ok; llia).
  erewrite bind_done by (apply ck32_ok; llia).
  erewrite bind_done by (by apply aget_nat).
  erewrite bind_done by (apply ck32_ok; llia).
  erewrite bind_done.
  2:{ apply aget_Z; [lia|]. replace (Z.to_nat (Z.of_nat i + 2)) with (S (S i)) by lia. exact Hd. }
  erewrite bind_done by (apply ck64_ok; llia).
  replace (_ <? _) with false by lia. done.
Qed.

Lemma pooling_rule_any m p T T3 nb nc sd ks ss ps ls o E s :
  wf s -> alloc_all E -> hooks_ok E -> holds (heap s) p T ->
  a_dims T = nb :: nc :: sd -> (1 <= length sd <= 3)%nat -> win_ok sd ks ss ps ls ->
  prodZ ks <= INT64_MAX -> prodZ (win_outs sd ks ss ps ls) <= INT_MAX ->
  (Z.to_nat (prodZ ks) <= e_fuel E)%nat -> (Z.to_nat (prodZ (win_outs sd ks ss ps ls)) <= e_fuel E)%nat ->
  a_type T3 = a_type T -> a_dev T3 = a_dev T -> a_dims T3 = nb :: nc :: win_outs sd ks ss ps ls -> valid T3 ->
  (forall b c x, in_box (a_dims T3) (b :: c :: x) ->
     pool_value m (a_type T) (prodZ ks) (window T ks ss ps ls b c x) = Some (at_ T3 (b :: c :: x))) ->
  makes (aitisa_pooling (HPtr p) m ks ss ps ls o) E s T3.
Proof.
  intros Hwf HE HH HT Hdim Hrank Hok Hks Hos Hf1 Hf2 Ht3 Hdev3 Hdims3 HvT3 Hval.
  set (os := win_outs sd ks ss ps ls) in *.
  apply (makes_or_nomem_alloc _ _ _ o); [done|]. apply Qmakes_elim.
  pose proof (holds_valid _ _ _ HT) as HvT. pose proof (valid_len _ HvT) as HlenA.
  pose proof HvT as [Hfit _]. pose proof HvT3 as [Hfit3 _]. pose proof (valid_len _ HvT3) as Hlen3.
  destruct HT as (_ & bA & tgA & exA & Hv & Hx).
  destruct T3 as [t3 dev3 dims3 ws]. cbn [a_type a_dev a_dims a_vals] in *. subst t3 dev3 dims3.
  rewrite Hdim in *. set (t := a_type T) in *.
  pose proof (win_outs_length _ _ _ _ _ Hok) as Lo. fold os in Lo.
  pose proof (win_outs_pos _ _ _ _ _ Hok) as Hop. fold os in Hop.
  destruct (win_ok_length _ _ _ _ _ Hok) as (L1 & L2 & L3 & L4).
  assert (Forall (fun d => 0 <= d) (nb :: nc :: sd)) as Hnn by apply Hfit.
  apply Forall_cons in Hnn as [Hn0 Hnn]. apply Forall_cons in Hnn as [Hn1 Hnn].
  assert (sd <> []) as Hsd by (intros ->; cbn in Hrank; lia).
  unfold aitisa_pooling. eapply wp_step; [by eapply tensor_ndim_ok|].
  replace ((2 <? Z.of_nat (length (nb :: nc :: sd))) && (Z.of_nat (length (nb :: nc :: sd)) <? 6)) with true
    by (cbn [length]; lia).
  unfold pooling_double.
  eapply wp_step; [by eapply tensor_ndim_ok|].
  eapply wp_step; [by eapply tensor_dims_ok|].
  set (n := Z.of_nat (length (nb :: nc :: sd))).
  assert (0 <= 8 * n <= PTRDIFF_MAX) as Hsz by (unfold n; cbn [length]; llia).
  eapply wp_scr0; [done|done|done|apply frame_nil|]. intros c1 s1 W1 F1 R1 C1 S1.
  eapply wp_scr0; [done|done|done|exact F1|]. intros c2 s2 W2 F2 R2 C2 S2.
  eapply wp_scr0; [done|done|done|exact F2|]. intros c3 s3 W3 F3 R3 C3 S3.
  eapply wp_scr0; [done|done|done|exact F3|]. intros c4 s4 W4 F4 R4 C4 S4.
  eapply wp_scr0; [done|done|done|exact F4|]. intros c5 s5 W5 F5 R5 C5 S5.
  eapply wp_scr0; [done|done|done|exact F5|]. intros c6 s6 W6 F6 R6 C6 S6.
  eapply wp_step.
  { apply (pool_check_ok nb nc sd ks ss ps ls); [done|]. unfold n. cbn [length]. lia. }
  cbv beta match.
  eapply wp_step; [eapply touch_frame0; [exact F6|]; repeat (first [left|right])|].
  assert (heap s ⊆ heap s6) as S06 by (by eapply frame_sub).
  pose proof (view_mono _ _ _ _ _ _ _ _ S06 Hv) as Hv6.
  pose proof (lookup_weaken _ _ _ _ Hx S06) as Hx6.
  destruct (create_t_ok t (a_dev T) (nb :: nc :: os) HUndef E s6 W6 Hfit3 HE)
    as (s7 & q & pd & pm & pst & px & Hcr & Ht7 & R7).
  eapply wp_step.
  { rewrite (pooling_create_ok Hv6 Hok). exact Hcr. }
  cbv beta match. rewrite bool_decide_eq_true_2 by done. cbn [negb].
  eapply wp_step.
  { apply window_size_ok; [by eapply win_ks_pos|done|]. unfold n. cbn [length]. lia. }
  assert (touch (HPtr c3) E s7 = Done tt s7) as HT3.
  { eapply touch_frame; [exact Ht7|exact F6|]. rewrite !elem_of_cons. tauto. }
  assert (touch (HPtr c4) E s7 = Done tt s7) as HT4.
  { eapply touch_frame; [exact Ht7|exact F6|]. rewrite !elem_of_cons. tauto. }
  pose proof (view_mono _ _ _ _ _ _ _ _ (tnew_base _ _ Ht7) Hv6) as Hv7.
  pose proof (tnew_view _ _ Ht7) as Hv7'.
  eapply wp_step; [exact HT3|].
  eapply wp_step.
  { erewrite all_strides; [by rewrite strides_suffs|exact Hv7|apply (tsz_pos t)|exact Hfit|apply rowmajor_layout|].
    unfold n. rewrite replicate_length. lia. }
  eapply wp_step; [exact HT4|].
  eapply wp_step.
  { erewrite all_strides; [by rewrite strides_suffs|exact Hv7'|apply (tsz_pos t)|exact Hfit3|apply rowmajor_layout|].
    unfold n. rewrite replicate_length. cbn [length]. lia. }
  eapply wp_step; [by eapply tensor_data_ok|].
  eapply wp_step; [by eapply tensor_data_ok|].
  eapply wp_step; [by eapply tensor_dtype_ok|].
  eapply wp_step; [by apply (aget_nat _ 0)|].
  eapply wp_step; [by apply (aget_nat _ 1)|].
  replace (n - 2) with (Z.of_nat (length sd)) by (unfold n; cbn [length]; lia).
  apply wp_bind. eapply wp_mono.
  { eapply (pool_images_ok Hok Hsd Hnn Hx6 (ws := ws)); [done|done| |exact HlenA| |exact Hlen3|done|done|done| | | | |].
    - pose proof (fits_size _ _ (tsz_pos t) Hfit). lia.
    - pose proof (fits_size _ _ (tsz_pos t) Hfit3). fold os. lia.
    - destruct (frame_lookup _ _ c2 F6) as (y & Hy & _); [rewrite !elem_of_cons; tauto|eauto].
    - destruct (frame_lookup _ _ c6 F6) as (y & Hy & _); [rewrite !elem_of_cons; tauto|eauto].
    - destruct (frame_lookup _ _ c5 F6) as (y & Hy & _); [rewrite !elem_of_cons; tauto|eauto].
    - replace (length ws) with (Z.to_nat (prodZ (nb :: nc :: os))) by lia. exact Ht7.
    - fold os. intros b c j Hb Hc Hj.
      assert (in_box os (unravel os j)) as Hbo by (by apply unravel_in_box).
      assert (in_box (nb :: nc :: os) (b :: c :: unravel os j)) as Hbx by (constructor; [done|]; constructor; done).
      specialize (Hval b c (unravel os j) Hbx).
      rewrite (window_elems T nb nc sd) in Hval by done.
      unfold pool_value in Hval.
      destruct (mapM (to_double t) _) as [ds|] eqn:Hds; [|done]. cbn in Hval.
      exists ds. eexists. split; [by apply mapM_Some|]. split; [exact Hval|].
      unfold at_. cbn [a_vals a_dims].
      pose proof (ravel_bound _ _ Hbx) as Hrb.
      assert (ravel (nb :: nc :: os) (b :: c :: unravel os j) = (b * nc + c) * prodZ os + j) as Hr.
      { cbn [ravel]. rewrite prodZ_cons, ravel_unravel by done. ring. }
      rewrite Hr in *.
      destruct (lookup_lt_is_Some_2 ws (Z.to_nat ((b * nc + c) * prodZ os + j))) as [w Hw]; [lia|].
      by rewrite Hw. }
  intros r s8 (-> & Ht8 & R8). cbv beta match. fold os in Ht8.
  eapply (wp_scr_free [c6; c5; c4; c3; c2] c1 []); [done|exact Ht8|exact F6|]. intros h9 s9 Ht9 F9 R9.
  eapply (wp_scr_free [c6; c5; c4; c3] c2 []); [done|exact Ht9|exact F9|]. intros h10 s10 Ht10 F10 R10.
  eapply (wp_scr_free [c6] c5 [c4; c3]); [done|exact Ht10|exact F10|]. intros h11 s11 Ht11 F11 R11.
  eapply (wp_scr_free [] c6 [c4; c3]); [done|exact Ht11|exact F11|]. intros h12 s12 Ht12 F12 R12.
  eapply (wp_scr_free [c4] c3 []); [done|exact Ht12|exact F12|]. intros h13 s13 Ht13 F13 R13.
  eapply (wp_scr_free [] c4 []); [done|exact Ht13|exact F13|]. intros h14 s14 Ht14 F14 R14.
  apply frame_nil_inv in F14 as ->.
  apply wp_ret. left. exists q. split; [done|].
  eapply tnew_makes; [done|done| |].
  - eapply tnew_lo; [exact Ht14|lia].
  - congruence.
Qed.
Lemma pooling_rule m p T T3 nb nc sd ks ss ps ls o E s :
  wf s -> alloc_all E -> hooks_ok E -> m <> POther -> holds (heap s) p T ->
  a_dims T = nb :: nc :: sd -> (1 <= length sd <= 3)%nat -> win_ok sd ks ss ps ls ->
  prodZ ks <= INT64_MAX -> prodZ (win_outs sd ks ss ps ls) <= INT_MAX ->
  (Z.to_nat (prodZ ks) <= e_fuel E)%nat -> (Z.to_nat (prodZ (win_outs sd ks ss ps ls)) <= e_fuel E)%nat ->
  a_type T3 = a_type T -> a_dev T3 = a_dev T -> a_dims T3 = nb :: nc :: win_outs sd ks ss ps ls -> valid T3 ->
  (forall b c x, in_box (a_dims T3) (b :: c :: x) ->
     pool_value m (a_type T) (prodZ ks) (window T ks ss ps ls b c x) = Some (at_ T3 (b :: c :: x))) ->
  makes (aitisa_pooling (HPtr p) m ks ss ps ls o) E s T3.
Proof. intros Hwf HE HH _. by apply pooling_rule_any. Qed.

(** ** fuel *)
Definition dv {A} (m : M A) E s := m E s = Diverge.
Lemma dv_step {A B} (m : M A) (k : A -> M B) E s a s' :
  m E s = Done a s' -> dv (k a) E s' -> dv (bind m k) E s.
Proof. intros Hm Hk. unfold dv, bind. by rewrite Hm. Qed.
Lemma dv_bind {A B} (m : M A) (k : A -> M B) E s : dv m E s -> dv (bind m k) E s.
Proof. intros Hm. unfold dv, bind. by rewrite Hm. Qed.
Lemma dv_scr0 {B} L n (k : hval -> M B) E s base :
  alloc_all E -> 0 <= n <= PTRDIFF_MAX -> wf s -> frame (e_alloc E) L base (heap s) ->
  (forall b s', wf s' -> frame (e_alloc E) (b :: L) base (heap s') -> rpos s' = rpos s ->
     (ctr s <= ctr s')%nat -> heap s ⊆ heap s' -> dv (k (HPtr b)) E s') ->
  dv (bind (scratch n) k) E s.
Proof.
  intros HA Hn Hwf HF Hk.
  assert (exists b s', scratch n E s = Done (HPtr b) s' /\ wf s' /\ frame (e_alloc E) (b :: L) base (heap s') /\
    rpos s' = rpos s /\ (ctr s <= ctr s')%nat /\ heap s ⊆ heap s') as (b & s' & Heq & H1 & H2 & H3 & H4 & H5).
  { assert (wp (bind (scratch n) ret) E s (fun a s' => exists b, a = HPtr b /\ wf s' /\
      frame (e_alloc E) (b :: L) base (heap s') /\ rpos s' = rpos s /\ (ctr s <= ctr s')%nat /\ heap s ⊆ heap s'))
      as Hw.
    { eapply wp_scr0; [done|done|done|exact HF|]. intros b s' H1 H2 H3 H4 H5. apply wp_ret. eauto 10. }
    unfold wp, bind in Hw. destruct (scratch n E s) as [a s'| | |]; [|done|done|done].
    destruct Hw as (b & -> & Hb). exists b, s'. split; [done|exact Hb]. }
  eapply dv_step; [exact Heq|]. by apply Hk.
Qed.

(** with less fuel than there are window positions, or than there are output elements in a channel,
    the counted loops do not finish: so they take exactly that many iterations *)
Lemma pooling_short m p T T3 nb nc sd ks ss ps ls o E s :
  wf s -> alloc_all E -> m <> POther -> holds (heap s) p T ->
  a_dims T = nb :: nc :: sd -> (1 <= length sd <= 3)%nat -> win_ok sd ks ss ps ls ->
  0 < nb -> 0 < nc ->
  prodZ ks <= INT64_MAX -> prodZ (win_outs sd ks ss ps ls) <= INT_MAX ->
  (e_fuel E < Z.to_nat (prodZ ks) \/ e_fuel E < Z.to_nat (prodZ (win_outs sd ks ss ps ls)))%nat ->
  a_type T3 = a_type T -> a_dev T3 = a_dev T -> a_dims T3 = nb :: nc :: win_outs sd ks ss ps ls -> valid T3 ->
  (forall b c x, in_box (a_dims T3) (b :: c :: x) ->
     pool_value m (a_type T) (prodZ ks) (window T ks ss ps ls b c x) = Some (at_ T3 (b :: c :: x))) ->
  aitisa_pooling (HPtr p) m ks ss ps ls o E s = Diverge.
Proof.
  intros Hwf HE Hm HT Hdim Hrank Hok Hb0 Hc0 Hks Hos Hfu Ht3 Hdev3 Hdims3 HvT3 Hval.
  change (dv (aitisa_pooling (HPtr p) m ks ss ps ls o) E s).
  set (os := win_outs sd ks ss ps ls) in *.
  pose proof (holds_valid _ _ _ HT) as HvT. pose proof (valid_len _ HvT) as HlenA.
  pose proof HvT as [Hfit _]. pose proof HvT3 as [Hfit3 _]. pose proof (valid_len _ HvT3) as Hlen3.
  destruct HT as (_ & bA & tgA & exA & Hv & Hx).
  destruct T3 as [t3 dev3 dims3 ws]. cbn [a_type a_dev a_dims a_vals] in *. subst t3 dev3 dims3.
  rewrite Hdim in *. set (t := a_type T) in *.
  pose proof (win_outs_length _ _ _ _ _ Hok) as Lo. fold os in Lo.
  pose proof (win_outs_pos _ _ _ _ _ Hok) as Hop. fold os in Hop.
  destruct (win_ok_length _ _ _ _ _ Hok) as (L1 & L2 & L3 & L4).
  assert (Forall (fun d => 0 <= d) (nb :: nc :: sd)) as Hnn by apply Hfit.
  apply Forall_cons in Hnn as [Hn0 Hnn]. apply Forall_cons in Hnn as [Hn1 Hnn].
  assert (sd <> []) as Hsd by (intros ->; cbn in Hrank; lia).
  unfold aitisa_pooling. eapply dv_step; [by eapply tensor_ndim_ok|].
  replace ((2 <? Z.of_nat (length (nb :: nc :: sd))) && (Z.of_nat (length (nb :: nc :: sd)) <? 6)) with true
    by (cbn [length]; lia).
  unfold pooling_double.
  eapply dv_step; [by eapply tensor_ndim_ok|].
  eapply dv_step; [by eapply tensor_dims_ok|].
  set (n := Z.of_nat (length (nb :: nc :: sd))).
  assert (0 <= 8 * n <= PTRDIFF_MAX) as Hsz by (unfold n; cbn [length]; llia).
  eapply dv_scr0; [done|done|done|apply frame_nil|]. intros c1 s1 W1 F1 R1 C1 S1.
  eapply dv_scr0; [done|done|done|exact F1|]. intros c2 s2 W2 F2 R2 C2 S2.
  eapply dv_scr0; [done|done|done|exact F2|]. intros c3 s3 W3 F3 R3 C3 S3.
  eapply dv_scr0; [done|done|done|exact F3|]. intros c4 s4 W4 F4 R4 C4 S4.
  eapply dv_scr0; [done|done|done|exact F4|]. intros c5 s5 W5 F5 R5 C5 S5.
  eapply dv_scr0; [done|done|done|exact F5|]. intros c6 s6 W6 F6 R6 C6 S6.
  eapply dv_step.
  { apply (pool_check_ok nb nc sd ks ss ps ls); [done|]. unfold n. cbn [length]. lia. }
  cbv beta match.
  eapply dv_step; [eapply touch_frame0; [exact F6|]; repeat (first [left|right])|].
  assert (heap s ⊆ heap s6) as S06 by (by eapply frame_sub).
  pose proof (view_mono _ _ _ _ _ _ _ _ S06 Hv) as Hv6.
  pose proof (lookup_weaken _ _ _ _ Hx S06) as Hx6.
  destruct (create_t_ok t (a_dev T) (nb :: nc :: os) HUndef E s6 W6 Hfit3 HE)
    as (s7 & q & pd & pm & pst & px & Hcr & Ht7 & R7).
  eapply dv_step.
  { rewrite (pooling_create_ok Hv6 Hok). exact Hcr. }
  cbv beta match. rewrite bool_decide_eq_true_2 by done. cbn [negb].
  eapply dv_step.
  { apply window_size_ok; [by eapply win_ks_pos|done|]. unfold n. cbn [length]. lia. }
  assert (touch (HPtr c3) E s7 = Done tt s7) as HT3.
  { eapply touch_frame; [exact Ht7|exact F6|]. rewrite !elem_of_cons. tauto. }
  assert (touch (HPtr c4) E s7 = Done tt s7) as HT4.
  { eapply touch_frame; [exact Ht7|exact F6|]. rewrite !elem_of_cons. tauto. }
  pose proof (view_mono _ _ _ _ _ _ _ _ (tnew_base _ _ Ht7) Hv6) as Hv7.
  pose proof (tnew_view _ _ Ht7) as Hv7'.
  eapply dv_step; [exact HT3|].
  eapply dv_step.
  { erewrite all_strides; [by rewrite strides_suffs|exact Hv7|apply (tsz_pos t)|exact Hfit|apply rowmajor_layout|].
    unfold n. rewrite replicate_length. lia. }
  eapply dv_step; [exact HT4|].
  eapply dv_step.
  { erewrite all_strides; [by rewrite strides_suffs|exact Hv7'|apply (tsz_pos t)|exact Hfit3|apply rowmajor_layout|].
    unfold n. rewrite replicate_length. cbn [length]. lia. }
  eapply dv_step; [by eapply tensor_data_ok|].
  eapply dv_step; [by eapply tensor_data_ok|].
  eapply dv_step; [by eapply tensor_dtype_ok|].
  eapply dv_step; [by apply (aget_nat _ 0)|].
  eapply dv_step; [by apply (aget_nat _ 1)|].
  replace (n - 2) with (Z.of_nat (length sd)) by (unfold n; cbn [length]; lia).
  apply dv_bind. unfold dv.
  destruct (Z.to_nat nb) as [|nb'] eqn:Enb; [lia|]. cbn [iter_ret].
  match goal with |- bind ?b ?c _ _ = _ => change (dv (bind b c) E s7); apply dv_bind end.
  eapply dv_step.
  { destruct (frame_lookup _ _ c2 F6) as (y & Hy & _); [rewrite !elem_of_cons; tauto|].
    eapply touch_ok. eapply tnew_lookup; [exact Ht7|exact Hy]. }
  eapply dv_step.
  { destruct (frame_lookup _ _ c6 F6) as (y & Hy & _); [rewrite !elem_of_cons; tauto|].
    eapply touch_ok. eapply tnew_lookup; [exact Ht7|exact Hy]. }
  eapply dv_step.
  { destruct (frame_lookup _ _ c5 F6) as (y & Hy & _); [rewrite !elem_of_cons; tauto|].
    eapply touch_ok. eapply tnew_lookup; [exact Ht7|exact Hy]. }
  destruct (Z.to_nat nc) as [|nc'] eqn:Enc; [lia|]. cbn [iter_ret].
  apply dv_bind. unfold dv.
  eapply (pool_channel_short Hok Hsd Hnn Hx6 (ws := ws)); [done|done| |exact HlenA| |exact Hlen3|done|done|done| | |done].
  - pose proof (fits_size _ _ (tsz_pos t) Hfit). lia.
  - pose proof (fits_size _ _ (tsz_pos t) Hfit3). fold os. lia.
  - replace (length ws) with (Z.to_nat (prodZ (nb :: nc :: os))) by lia. exact Ht7.
  - fold os. intros j Hj. assert (0 <= 0 < nb) as Hb by lia. assert (0 <= 0 < nc) as Hc by lia.
      assert (in_box os (unravel os j)) as Hbo by (by apply unravel_in_box).
      assert (in_box (nb :: nc :: os) (0 :: 0 :: unravel os j)) as Hbx by (constructor; [done|]; constructor; done).
      specialize (Hval 0 0 (unravel os j) Hbx).
      rewrite (window_elems T nb nc sd) in Hval by done.
      unfold pool_value in Hval.
      destruct (mapM (to_double t) _) as [ds|] eqn:Hds; [|done]. cbn in Hval.
      exists ds. eexists. split; [by apply mapM_Some|]. split; [exact Hval|].
      unfold at_. cbn [a_vals a_dims].
      pose proof (ravel_bound _ _ Hbx) as Hrb.
      assert (ravel (nb :: nc :: os) (0 :: 0 :: unravel os j) = (0 * nc + 0) * prodZ os + j) as Hr.
      { cbn [ravel]. rewrite prodZ_cons, ravel_unravel by done. ring. }
      rewrite Hr in *.
      destruct (lookup_lt_is_Some_2 ws (Z.to_nat ((0 * nc + 0) * prodZ os + j))) as [w Hw]; [lia|].
      by rewrite Hw. 
Qed.
