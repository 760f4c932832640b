(** * ExampleSample: a checker for the discipline of SpecSample, for examples *)
From stdpp Require Import gmap list.
From Coq Require Import ZArith Lia ZifyBool ZifyNat.
From Verif Require Import Base Mem Spec ModelSample SpecSample Fixture.
Open Scope Z_scope.

Definition ownedb (V : objs) (b : nat) : bool :=
  existsb (fun kv : nat * obj => bool_decide (HPtr b ∈ o_bufs kv.2)) (map_to_list V).
Definition sharedb (V : objs) (x : nat) : bool :=
  match V !! x with
  | Some o => negb (is_null (o_count o)) &&
      existsb (fun kv : nat * obj => bool_decide (kv.1 <> x /\ o_count kv.2 = o_count o)) (map_to_list V)
  | None => false
  end.
Definition aliveb (V : objs) (x : nat) : bool :=
  match V !! x with Some o => negb (is_null (o_count o)) | None => false end.
Definition givableb (V : objs) (h : gmap nat block) (p : hval) : bool :=
  match p with
  | HNull => true
  | HPtr b => match h !! b with Some (Blk t _) => bool_decide (t = ARR) && negb (ownedb V b) | None => false end
  | HUndef => false
  end.
Fixpoint distinctb (l : list hval) : bool :=
  match l with
  | [] => true
  | HNull :: l => distinctb l
  | p :: l => bool_decide (p ∉ l) && distinctb l
  end.
Definition freshb (V : objs) (x : nat) : bool := match V !! x with None => true | _ => false end.
Definition legalb (op : hop) (V : objs) (h : gmap nat block) : bool :=
  match op with
  | NewArr _ _ => true
  | DelArr p => givableb V h p
  | Default x _ => freshb V x
  | Ptrs x k _ bs => freshb V x && bool_decide (k <> Result) && (length bs =? nbufs k)%nat &&
      forallb (givableb V h) bs && distinctb bs
  | Vec1 x n v _ d => freshb V x && (n <=? Z.of_nat (length v)) && givableb V h d
  | Vec2 x n1 v1 n2 v2 _ d1 d2 => freshb V x && (n1 <=? Z.of_nat (length v1)) && (n2 <=? Z.of_nat (length v2)) &&
      givableb V h d1 && givableb V h d2 && (negb (bool_decide (d1 = d2)) || is_null d1)
  | Copy x y => freshb V x && aliveb V y && (Z.of_nat (size V) <? INT_MAX)
  | Move x y => freshb V x && negb (freshb V y)
  | Assign x y => aliveb V x && aliveb V y && (bool_decide (x <> y) || sharedb V x) && (Z.of_nat (size V) <=? INT_MAX) &&
      match V !! x, V !! y with
      | Some a, Some b => bool_decide (o_class a = o_class b /\ o_class a <> Result) | _, _ => false end
  | SetData x i p _ => aliveb V x && negb (sharedb V x) && givableb V h p &&
      match V !! x with Some o => bool_decide (o_bufs o !! i = Some HNull) | None => false end
  | SetResult x n dp xp len _ => aliveb V x && negb (sharedb V x) && (0 <=? len) && (len <? 2 ^ 32) &&
      match V !! x with
      | Some o => bool_decide (o_class o = Result) && forallb (fun p => bool_decide (HNull = p)) (o_bufs o)
      | None => false end &&
      ((n <=? 0) || match dp with
        | HPtr b => match h !! b with Some (Blk _ (CInts l)) => n <=? Z.of_nat (length l) | _ => false end
        | _ => false end) &&
      ((len =? 0) || match xp with
        | HPtr b => match h !! b with Some (Blk _ (CData l)) => len <=? Z.of_nat (length l) | _ => false end
        | _ => false end)
  | Use x i => aliveb V x &&
      match V !! x with Some o => match o_bufs o !! i with Some (HPtr _) => true | _ => false end | None => false end
  | Destroy x => negb (freshb V x)
  end.

Lemma ownedb_ok V b : owned V b -> ownedb V b = true.
Proof.
  intros (x & o & Hx & Hb). apply existsb_exists. exists (x, o). split.
  - apply elem_of_list_In. by apply elem_of_map_to_list.
  - by apply bool_decide_eq_true.
Qed.
Lemma sharedb_ok V x : shared V x -> sharedb V x = true.
Proof.
  intros (y & o & o' & Hne & Hx & Hy & He & Hn). unfold sharedb. rewrite Hx.
  apply andb_true_intro. split; [by destruct (o_count o)|].
  apply existsb_exists. exists (y, o'). split.
  - apply elem_of_list_In. by apply elem_of_map_to_list.
  - by apply bool_decide_eq_true.
Qed.
Lemma sharedb_sound V x : sharedb V x = true -> shared V x.
Proof.
  unfold sharedb. destruct (V !! x) as [o|] eqn:Hx; [|done]. intros H. apply andb_prop in H as [Hn H].
  apply existsb_exists in H as ([y o'] & H1 & H2). apply bool_decide_eq_true in H2 as [H2 H3]. cbn in *.
  apply elem_of_list_In, elem_of_map_to_list in H1. exists y, o, o'. split_and!; try done. by intros ->%eq_sym || (intros E; by rewrite E in Hn).
Qed.
Lemma aliveb_sound V x : aliveb V x = true -> alive V x.
Proof.
  unfold aliveb. destruct (V !! x) as [o|] eqn:Hx; [|done]. intros H. exists o. split; [done|].
  intros E. by rewrite E in H.
Qed.
Lemma givableb_sound V h p : givableb V h p = true -> givable V h p.
Proof.
  destruct p as [|b|]; cbn; intros H; [by left| |done]. right.
  destruct (h !! b) as [[t c]|] eqn:Hb; [|done]. apply andb_prop in H as [Ht Ho].
  apply bool_decide_eq_true in Ht as ->. exists b, c. split_and!; try done.
  intros H. apply ownedb_ok in H. by rewrite H in Ho.
Qed.
Lemma distinctb_sound l : distinctb l = true -> distinct l.
Proof.
  induction l as [|p l IH]; [intros _ i j b H; by destruct i|]. intros H.
  assert (distinct l /\ forall b, p = HPtr b -> HPtr b ∉ l) as [Hd Hn].
  { destruct p as [|b|]; cbn in H.
    - split; [by apply IH|done].
    - apply andb_prop in H as [H1 H2]. apply bool_decide_eq_true in H1. split; [by apply IH|]. by intros b' [= ->].
    - apply andb_prop in H as [H1 H2]. split; [by apply IH|done]. }
  intros [|i] [|j] b H1 H2; cbn in *.
  - done.
  - injection H1 as ->. apply elem_of_list_lookup_2 in H2. by apply Hn in H2.
  - injection H2 as ->. apply elem_of_list_lookup_2 in H1. by apply Hn in H1.
  - f_equal. by eapply Hd.
Qed.
Lemma freshb_sound V x : freshb V x = true -> V !! x = None.
Proof. unfold freshb. by destruct (V !! x). Qed.
Lemma freshb_not V x : negb (freshb V x) = true -> is_Some (V !! x).
Proof. unfold freshb. destruct (V !! x); [eauto|done]. Qed.

Ltac splitb := repeat match goal with H : _ && _ = true |- _ => apply andb_prop in H as [? ?] end.
Lemma legalb_sound op V h : legalb op V h = true -> legal op V h.
Proof.
  destruct op; cbn [legalb legal]; intros H; splitb.
  - done.
  - by apply givableb_sound.
  - by apply freshb_sound.
  - split_and!; [by apply freshb_sound|by eapply bool_decide_eq_true|lia| |by apply distinctb_sound].
    apply Forall_forall. intros p Hp. apply givableb_sound.
    match goal with H : forallb _ _ = true |- _ => rewrite forallb_forall in H; apply H end. by apply elem_of_list_In.
  - split_and!; [by apply freshb_sound|lia|by apply givableb_sound].
  - split_and!; [by apply freshb_sound|lia|lia|by apply givableb_sound|by apply givableb_sound|].
    intros ->. rewrite bool_decide_true in * by done. by destruct data2.
  - split_and!; [by apply freshb_sound|by apply aliveb_sound|lia].
  - split_and!; [by apply freshb_sound|by apply freshb_not].
  - split_and!; [by apply aliveb_sound|by apply aliveb_sound| |lia|].
    + match goal with H : _ || _ = true |- _ => apply orb_prop in H as [H|H] end.
      * left. by eapply bool_decide_eq_true.
      * right. by apply sharedb_sound.
    + destruct (V !! x) as [a|]; [|done]. destruct (V !! y) as [b|]; [|done].
      match goal with H : bool_decide _ = true |- _ => apply bool_decide_eq_true in H as [? ?] end. by exists a, b.
  - split_and!; [by apply aliveb_sound| |by apply givableb_sound|].
    + intros Hs. apply sharedb_ok in Hs. by rewrite Hs in *.
    + destruct (V !! x) as [o|]; [|done]. exists o. split; [done|]. by eapply bool_decide_eq_true.
  - split_and!; [by apply aliveb_sound| |lia|lia| | |].
    + intros Hs. apply sharedb_ok in Hs. by rewrite Hs in *.
    + destruct (V !! x) as [o|]; [|done]. splitb. exists o. split_and!; [done|by eapply bool_decide_eq_true|].
      apply Forall_forall. intros p Hp.
      match goal with H : forallb _ _ = true |- _ => rewrite forallb_forall in H; specialize (H p) end.
      eapply bool_decide_eq_true. apply H6. by apply elem_of_list_In.
    + match goal with H : (ndim <=? 0) || _ = true |- _ => apply orb_prop in H as [H|H] end; [left; lia|right].
      destruct dims as [|b|]; try done. destruct (h !! b) as [[t [| |l| |]]|] eqn:Hb; try done. exists b, t, l. split_and!; [done|done|lia].
    + match goal with H : (len =? 0) || _ = true |- _ => apply orb_prop in H as [H|H] end; [left; lia|right].
      destruct data as [|b|]; try done. destruct (h !! b) as [[t [| | |l|]]|] eqn:Hb; try done. exists b, t, l. split_and!; [done|done|lia].
  - split; [by apply aliveb_sound|]. destruct (V !! x) as [o|]; [|done].
    destruct (o_bufs o !! i) as [[|b|]|] eqn:Hb; try done. by exists o, b.
  - by apply freshb_not.
Qed.

Fixpoint legal_runb (E : env) (h : list hop) (V : objs) (s : st) : bool :=
  match h with
  | [] => true
  | op :: h => legalb op V (heap s) &&
      match step op V E s with Done V' s' => legal_runb E h V' s' | _ => true end
  end.
Lemma legal_runb_sound E h V s : legal_runb E h V s = true -> legal_run E h V s.
Proof.
  revert V s. induction h as [|op h IH]; intros V s H; [done|]. cbn [legal_runb legal_run] in *.
  apply andb_prop in H as [H1 H2]. split; [by apply legalb_sound|]. intros V' s' Hs. rewrite Hs in H2. by apply IH.
Qed.

(** The final objects (name, buffers) and the live blocks of a run. *)
Definition ends (r : res objs) : option (list (nat * list hval) * list nat) :=
  match r with
  | Done V s => Some ((fun kv : nat * obj => (kv.1, o_bufs kv.2)) <$> map_to_list V, (map_to_list (heap s)).*1)
  | _ => None
  end.
