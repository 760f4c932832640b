(** * ProofKernel: rules for the create-then-fill pattern of most operations *)
From stdpp Require Import gmap list.
From Coq Require Import ZArith Lia.
From Coq Require Import ZifyBool ZifyNat.
From Verif Require Import Base Mem Spec ModelCore Logic ProofCore ProofCore2.
Open Scope Z_scope.

Ltac Zify.zify_post_hook ::= Z.div_mod_to_equations.

Lemma tc_of_code t : tc_of (code_of t) = Some t.
Proof. by destruct t. Qed.
Lemma dispatch_all_t {A} t (k : tcode -> M A) d : dispatch_all (dtype_of t) k d = k t.
Proof. unfold dispatch_all. cbn [dtype_of d_code]. by rewrite tc_of_code. Qed.
Lemma dispatch_float_t {A} t (k : tcode -> M A) d :
  dispatch_float (dtype_of t) k d = if is_float t then k t else d.
Proof. unfold dispatch_float. cbn [dtype_of d_code]. by rewrite tc_of_code. Qed.
Lemma code_of_inj t t' : code_of t = code_of t' -> t = t'.
Proof. destruct t, t'; done. Qed.
Lemma dtype_of_inj t t' : dtype_of t = dtype_of t' -> t = t'.
Proof. intros H. apply code_of_inj. by injection H. Qed.

(** Creation of a tensor of one of the ten types *)
Lemma create_t_rule t dev dims o E s (Q : status * hval -> st -> Prop) :
  wf s -> fits (tsz t) dims ->
  (forall s' p pd pm ps px,
     tnew (e_alloc E) (ctr s) (heap s) s' p pd pm ps px (dtype_of t) dev dims
          (cells t (replicate (Z.to_nat (prodZ dims)) VU)) ->
     rpos s' = rpos s -> Q (SUCCESS, HPtr p) s') ->
  (forall s', ~ alloc_all E -> keeps s s' -> rpos s' = rpos s -> Q (ALLOC_FAILED, o) s') ->
  wp (aitisa_create (dtype_of t) dev dims (Z.of_nat (length dims)) HNull 0 o) E s Q.
Proof.
  intros Hwf Hfit HQ HF. pose proof (tsz_pos t).
  pose proof (fits_bytes _ _ Hfit). pose proof (fits_nonneg _ _ Hfit).
  apply create_rule; [done|by eapply fits_prefixes|by eapply fits_len|done| |done].
  intros s' p pd pm ps px Ht Hr. eapply HQ; [|done].
  rewrite cells_replicate_VU. cbn [dtype_of d_size] in Ht.
  replace (Z.to_nat (prodZ dims) * tsz t)%nat
    with (Z.to_nat (Z.of_nat (tsz t) * prodZ dims)) by nia.
  exact Ht.
Qed.

(** With an allocator that never refuses *)
Lemma create_t_ok t dev dims o E s :
  wf s -> fits (tsz t) dims -> alloc_all E ->
  exists s' p pd pm ps px,
    aitisa_create (dtype_of t) dev dims (Z.of_nat (length dims)) HNull 0 o E s
    = Done (SUCCESS, HPtr p) s' /\
    tnew (e_alloc E) (ctr s) (heap s) s' p pd pm ps px (dtype_of t) dev dims
          (cells t (replicate (Z.to_nat (prodZ dims)) VU)) /\
    rpos s' = rpos s.
Proof.
  intros Hwf Hfit HE.
  assert (wp (aitisa_create (dtype_of t) dev dims (Z.of_nat (length dims)) HNull 0 o) E s
    (fun r s' => exists p pd pm ps px, r = (SUCCESS, HPtr p) /\
      tnew (e_alloc E) (ctr s) (heap s) s' p pd pm ps px (dtype_of t) dev dims
          (cells t (replicate (Z.to_nat (prodZ dims)) VU)) /\
      rpos s' = rpos s)) as Hwp.
  { apply create_t_rule; [done|done| |done].
    intros. do 5 eexists. split_and!; done. }
  apply wp_elim in Hwp as (r & s' & Hr & p & pd & pm & ps & px & -> & ? & ?).
  exists s', p, pd, pm, ps, px. done.
Qed.

Lemma tnew_lookup {tag lo base s p pd pm ps px dt dev dims bytes} b x :
  tnew tag lo base s p pd pm ps px dt dev dims bytes ->
  base !! b = Some x -> heap s !! b = Some x.
Proof. intros H Hb. eapply lookup_weaken; [done|]. by eapply tnew_base. Qed.

Lemma st_eta s : St (heap s) (ctr s) (rpos s) = s.
Proof. by destruct s. Qed.
Lemma upd_id s b x : heap s !! b = Some x -> upd s b x = s.
Proof. intros H. unfold upd. rewrite insert_id by done. apply st_eta. Qed.
Lemma upd_upd s b x y : upd (upd s b x) b y = upd s b y.
Proof. unfold upd. cbn. by rewrite insert_insert. Qed.

(** Filling a list left to right. *)
Lemma fill_step {A} (f : nat -> A) n k (x0 : A) : (k < n)%nat ->
  <[k := f k]> ((f <$> seq 0 k) ++ replicate (n - k) x0)
  = (f <$> seq 0 (S k)) ++ replicate (n - S k) x0.
Proof.
  intros Hk. replace (n - k)%nat with (S (n - S k)) by lia. cbn [replicate].
  rewrite seq_S, fmap_app, <-app_assoc. cbn.
  rewrite insert_app_r_alt by (rewrite fmap_length, seq_length; lia).
  rewrite fmap_length, seq_length, Nat.sub_diag. done.
Qed.
Lemma fill_length {A} (f : nat -> A) n k (x0 : A) : (k <= n)%nat ->
  length ((f <$> seq 0 k) ++ replicate (n - k) x0) = n.
Proof. intros. rewrite app_length, fmap_length, seq_length, replicate_length. lia. Qed.

(** A loop that writes element [k] of block [b] in step [k]. *)
Lemma fill_iter {E s b tg t ex n} (f : nat -> val) (body : Z -> unit -> M unit) :
  heap s !! b = Some (Blk tg (CData (cells t (replicate n VU) ++ ex))) ->
  (forall k vs, (k < n)%nat -> length vs = n ->
     let s' := upd s b (Blk tg (CData (cells t vs ++ ex))) in
     body (Z.of_nat k) tt E s'
     = Done tt (upd s b (Blk tg (CData (cells t (<[k := f k]> vs) ++ ex))))) ->
  iter n 0 body tt E s
  = Done tt (upd s b (Blk tg (CData (cells t (f <$> seq 0 n) ++ ex)))).
Proof.
  intros Hb Hstep.
  assert (wp (iter n 0 body tt) E s (fun _ s' => s' =
     upd s b (Blk tg (CData (cells t ((f <$> seq 0 n) ++ replicate (n - n) VU) ++ ex))))) as H.
  { apply (iter_rule (fun k _ s' => s' =
     upd s b (Blk tg (CData (cells t ((f <$> seq 0 k) ++ replicate (n - k) VU) ++ ex))))).
    - cbn. rewrite Nat.sub_0_r. symmetry. by apply upd_id.
    - intros k [] s' Hk ->. rewrite Z.add_0_l. eapply wp_intro.
      + apply Hstep; [done|]. apply fill_length. lia.
      + cbv beta. by rewrite fill_step by done. }
  apply wp_elim in H as ([] & s' & -> & ->). f_equal.
  by rewrite Nat.sub_diag, app_nil_r.
Qed.

Lemma fill_for64 {E s b tg t ex} n (f : nat -> val) hi (body : Z -> unit -> M unit) :
  hi = Z.of_nat n ->
  heap s !! b = Some (Blk tg (CData (cells t (replicate n VU) ++ ex))) ->
  (forall k vs, (k < n)%nat -> length vs = n ->
     let s' := upd s b (Blk tg (CData (cells t vs ++ ex))) in
     body (Z.of_nat k) tt E s'
     = Done tt (upd s b (Blk tg (CData (cells t (<[k := f k]> vs) ++ ex))))) ->
  for64 0 hi body tt E s
  = Done tt (upd s b (Blk tg (CData (cells t (f <$> seq 0 n) ++ ex)))).
Proof.
  intros -> Hb Hs. unfold for64. replace (Z.to_nat (Z.of_nat n - 0)) with n by lia.
  by apply fill_iter.
Qed.
Lemma fill_for32 {E s b tg t ex} n (f : nat -> val) hi (body : Z -> unit -> M unit) :
  hi = Z.of_nat n -> Z.of_nat n <= INT_MAX ->
  heap s !! b = Some (Blk tg (CData (cells t (replicate n VU) ++ ex))) ->
  (forall k vs, (k < n)%nat -> length vs = n ->
     let s' := upd s b (Blk tg (CData (cells t vs ++ ex))) in
     body (Z.of_nat k) tt E s'
     = Done tt (upd s b (Blk tg (CData (cells t (<[k := f k]> vs) ++ ex))))) ->
  for32 0 hi body tt E s
  = Done tt (upd s b (Blk tg (CData (cells t (f <$> seq 0 n) ++ ex)))).
Proof.
  intros -> Hn Hb Hs. unfold for32. replace (Z.to_nat (Z.of_nat n - 0)) with n by lia.
  apply fill_iter; [done|]. intros k vs Hk Hl. cbv zeta.
  erewrite bind_done by (by apply Hs).
  erewrite bind_done by (apply check_ok; lia). done.
Qed.

(** The same for the buffer of a fresh tensor: the loop leaves a [tnew] state. *)
Section tnew_fill.
Context {E : env} {tag lo : nat} {base : gmap nat block} {s : st} {p pd pm ps px : nat}
  {t : tcode} {dev : device} {dims : list Z} (n : nat) (f : nat -> val) (hi : Z)
  (body : Z -> unit -> M unit).
Let T s' vs := tnew tag lo base s' p pd pm ps px (dtype_of t) dev dims (cells t vs).

Lemma tnew_fill64 :
  T s (replicate n VU) -> hi = Z.of_nat n ->
  (forall k vs s', (k < n)%nat -> length vs = n -> T s' vs -> rpos s' = rpos s -> 
     body (Z.of_nat k) tt E s'
     = Done tt (upd s' px (Blk tag (CData (cells t (<[k := f k]> vs)))))) ->
  exists s', for64 0 hi body tt E s = Done tt s' /\ T s' (f <$> seq 0 n) /\
             rpos s' = rpos s.
Proof using Type.
  intros HT Hh Hs. eexists. split.
  - eapply (fill_for64 (tg:=tag) (b:=px) (t:=t) (ex:=[]) n f); [done| |].
    + rewrite app_nil_r. by eapply tnew_px.
    + intros k vs Hk Hl. cbv zeta. rewrite !app_nil_r. erewrite Hs; [|done|done| |done].
      * by rewrite upd_upd.
      * by eapply tnew_upd.
  - rewrite app_nil_r. split; [by eapply tnew_upd|done].
Qed.
Lemma tnew_fill32 :
  T s (replicate n VU) -> hi = Z.of_nat n -> Z.of_nat n <= INT_MAX ->
  (forall k vs s', (k < n)%nat -> length vs = n -> T s' vs -> rpos s' = rpos s ->
     body (Z.of_nat k) tt E s'
     = Done tt (upd s' px (Blk tag (CData (cells t (<[k := f k]> vs)))))) ->
  exists s', for32 0 hi body tt E s = Done tt s' /\ T s' (f <$> seq 0 n) /\
             rpos s' = rpos s.
Proof using Type.
  intros HT Hh Hn Hs. eexists. split.
  - eapply (fill_for32 (tg:=tag) (b:=px) (t:=t) (ex:=[]) n f); [done|done| |].
    + rewrite app_nil_r. by eapply tnew_px.
    + intros k vs Hk Hl. cbv zeta. rewrite !app_nil_r. erewrite Hs; [|done|done| |done].
      * by rewrite upd_upd.
      * by eapply tnew_upd.
  - rewrite app_nil_r. split; [by eapply tnew_upd|done].
Qed.

(** Storing element [k] of the fresh tensor *)
Lemma tnew_storei s' vs (k : nat) v :
  T s' vs -> (k < length vs)%nat ->
  storei (HPtr px) t (Z.of_nat k) v E s'
  = Done tt (upd s' px (Blk tag (CData (cells t (<[k := v]> vs))))).
Proof using Type.
  intros HT Hk. apply tnew_px in HT as Hx. 
  rewrite <-(app_nil_r (cells t vs)) in Hx.
  erewrite storei_cells by done. by rewrite app_nil_r.
Qed.
Lemma tnew_loadi s' vs (k : nat) v :
  T s' vs -> vs !! k = Some v -> loadi (HPtr px) t (Z.of_nat k) E s' = Done v s'.
Proof using Type.
  intros HT Hk. apply tnew_px in HT as Hx. 
  rewrite <-(app_nil_r (cells t vs)) in Hx. by eapply loadi_cells.
Qed.
End tnew_fill.

(** Reading an element of a tensor *)
Lemma holds_valid h p T : holds h p T -> valid T.
Proof. by intros [? _]. Qed.
Lemma valid_len T : valid T -> Z.of_nat (length (a_vals T)) = prodZ (a_dims T).
Proof. by intros [_ ?]. Qed.
Lemma valid_fits T : valid T -> fits (tsz (a_type T)) (a_dims T).
Proof. by intros [? _]. Qed.
Lemma valid_len_nat T : valid T -> Z.to_nat (prodZ (a_dims T)) = length (a_vals T).
Proof. intros H. rewrite <-valid_len by done. lia. Qed.

Lemma seq_lookup_map {A} (l : list A) (g : A -> val) (f : nat -> val) :
  (forall k x, l !! k = Some x -> f k = g x) ->
  f <$> seq 0 (length l) = g <$> l.
Proof.
  intros H. apply list_eq. intros i. rewrite !list_lookup_fmap.
  destruct (l !! i) as [x|] eqn:Hx.
  - rewrite lookup_seq_lt by (by apply lookup_lt_Some in Hx). cbn. by erewrite H.
  - apply lookup_ge_None in Hx. rewrite lookup_seq_ge by done. done.
Qed.
(** The list of defined results of a partial element function *)
Lemma seq_lookup_list (l : list val) (f : nat -> val) :
  (forall k x, l !! k = Some x -> f k = x) -> f <$> seq 0 (length l) = l.
Proof. intros H. rewrite (seq_lookup_map l id f) by done. apply list_fmap_id. Qed.

Section wp_fill.
Context {E : env} {tag lo : nat} {base : gmap nat block} {s : st} {p pd pm ps px : nat}
  {t : tcode} {dev : device} {dims : list Z} (n : nat) (f : nat -> val) {hi : Z}
  {body : Z -> unit -> M unit} {B : Type} {k0 : unit -> M B} {Q : B -> st -> Prop}.
Let T s' vs := tnew tag lo base s' p pd pm ps px (dtype_of t) dev dims (cells t vs).
Lemma wp_fill64 :
  T s (replicate n VU) -> hi = Z.of_nat n ->
  (forall k vs s', (k < n)%nat -> length vs = n -> T s' vs -> rpos s' = rpos s -> 
     body (Z.of_nat k) tt E s'
     = Done tt (upd s' px (Blk tag (CData (cells t (<[k := f k]> vs)))))) ->
  (forall s', T s' (f <$> seq 0 n) -> rpos s' = rpos s -> wp (k0 tt) E s' Q) ->
  wp (bind (for64 0 hi body tt) k0) E s Q.
Proof using Type.
  intros H1 H2 H3 H4. destruct (tnew_fill64 n f hi body H1 H2 H3) as (s' & Hf & HT & Hr).
  eapply wp_step; [exact Hf|]. by apply H4.
Qed.
Lemma wp_fill32 :
  T s (replicate n VU) -> hi = Z.of_nat n -> Z.of_nat n <= INT_MAX ->
  (forall k vs s', (k < n)%nat -> length vs = n -> T s' vs -> rpos s' = rpos s -> 
     body (Z.of_nat k) tt E s'
     = Done tt (upd s' px (Blk tag (CData (cells t (<[k := f k]> vs)))))) ->
  (forall s', T s' (f <$> seq 0 n) -> rpos s' = rpos s -> wp (k0 tt) E s' Q) ->
  wp (bind (for32 0 hi body tt) k0) E s Q.
Proof using Type.
  intros H1 H2 H2' H3 H4. destruct (tnew_fill32 n f hi body H1 H2 H2' H3) as (s' & Hf & HT & Hr).
  eapply wp_step; [exact Hf|]. by apply H4.
Qed.
End wp_fill.
