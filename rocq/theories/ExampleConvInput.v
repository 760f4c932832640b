(** * ExampleConvInput: a checker for the discipline of SpecConvInput, for examples *)
From stdpp Require Import gmap list.
From Coq Require Import ZArith Lia ZifyBool ZifyNat.
From Verif Require Import Base Mem Spec ModelSample SpecSample ModelConvInput SpecConvInput ExampleSample.
Open Scope Z_scope.

Definition heldb (V : cobjs) (b : nat) : bool :=
  existsb (fun kv : nat * cobj => bool_decide (HPtr b ∈ arrays kv.2) || bool_decide (o_count (c_base kv.2) = HPtr b)) (map_to_list V).
Definition cgivableb (V : cobjs) (h : gmap nat block) (p : hval) : bool :=
  match p with
  | HNull => true
  | HPtr b => match h !! b with Some (Blk t _) => bool_decide (t = ARR) && negb (heldb V b) | None => false end
  | HUndef => false
  end.
Definition cfreshb (V : cobjs) (x : nat) : bool := match V !! x with None => true | _ => false end.
Definition clegalb (op : cop) (V : cobjs) (h : gmap nat block) : bool :=
  match op with
  | CNewArr _ _ => true
  | CDelArr p => cgivableb V h p
  | CDefault x => cfreshb V x
  | CPtrs x _ bs ps _ => cfreshb V x && (length bs =? 4)%nat && (length ps =? 3)%nat &&
      forallb (cgivableb V h) (bs ++ ps) && distinctb (bs ++ ps)
  | CVec x n1 v1 n2 v2 _ d1 d2 st pa di _ =>
      cfreshb V x && (n1 <=? Z.of_nat (length v1)) && (n2 <=? Z.of_nat (length v2)) &&
      (n1 - 2 <=? Z.of_nat (length st)) && (n1 - 2 <=? Z.of_nat (length pa)) && (n1 - 2 <=? Z.of_nat (length di)) &&
      (n1 - 2 <=? INT_MAX) && cgivableb V h d1 && cgivableb V h d2 && (negb (bool_decide (d1 = d2)) || is_null d1)
  | CCopy _ _ | CAssign _ _ => false
  | CSetData x i p _ => cgivableb V h p &&
      match V !! x with Some o => bool_decide (o_bufs (c_base o) !! i = Some HNull) | None => false end
  | CUse x i => match V !! x with Some o => match c_arrs o !! i with Some (HPtr _) => true | _ => false end | None => false end
  | CDestroy x => negb (cfreshb V x)
  end.
Lemma heldb_ok V b : held V b -> heldb V b = true.
Proof.
  intros (x & o & Hx & Hb). apply existsb_exists. exists (x, o). split.
  - apply elem_of_list_In. by apply elem_of_map_to_list.
  - apply orb_true_intro. destruct Hb as [Hb|Hb]; [left|right]; by apply bool_decide_eq_true.
Qed.
Lemma cgivableb_sound V h p : cgivableb V h p = true -> cgivable V h p.
Proof.
  destruct p as [|b|]; cbn; intros H; [by left| |done]. right.
  destruct (h !! b) as [[t c]|] eqn:Hb; [|done]. apply andb_prop in H as [Ht Ho].
  apply bool_decide_eq_true in Ht as ->. exists b, c. split_and!; try done.
  intros H. apply heldb_ok in H. by rewrite H in Ho.
Qed.
Lemma cfreshb_sound V x : cfreshb V x = true -> V !! x = None.
Proof. unfold cfreshb. by destruct (V !! x). Qed.
Lemma clegalb_sound op V h : clegalb op V h = true -> clegal op V h.
Proof.
  destruct op; cbn [clegalb clegal]; intros H; splitb; try done.
  - by apply cgivableb_sound.
  - by apply cfreshb_sound.
  - split_and!; [by apply cfreshb_sound|lia|lia| |by apply distinctb_sound].
    apply Forall_forall. intros p Hp. apply cgivableb_sound.
    match goal with H : forallb _ _ = true |- _ => rewrite forallb_forall in H; apply H end. by apply elem_of_list_In.
  - split_and!; [by apply cfreshb_sound|lia|lia|lia|lia|lia|lia|by apply cgivableb_sound|by apply cgivableb_sound|].
    intros ->. rewrite bool_decide_true in * by done. by destruct data2.
  - split_and!; [by apply cgivableb_sound|].
    destruct (V !! x) as [o|]; [|done]. exists o. split; [done|]. by eapply bool_decide_eq_true.
  - destruct (V !! x) as [o|]; [|done]. destruct (c_arrs o !! i) as [[|b|]|] eqn:Hb; try done. by exists o, b.
  - unfold cfreshb in H. destruct (V !! x); [eauto|done].
Qed.
Fixpoint clegal_runb (E : env) (h : list cop) (V : cobjs) (s : st) : bool :=
  match h with
  | [] => true
  | op :: h => clegalb op V (heap s) &&
      match cstep op V E s with Done V' s' => clegal_runb E h V' s' | _ => true end
  end.
Lemma clegal_runb_sound E h V s : clegal_runb E h V s = true -> clegal_run E h V s.
Proof.
  revert V s. induction h as [|op h IH]; intros V s H; [done|]. cbn [clegal_runb clegal_run] in *.
  apply andb_prop in H as [H1 H2]. split; [by apply clegalb_sound|]. intros V' s' Hs. rewrite Hs in H2. by apply IH.
Qed.

(** The final objects (name, arrays) and the live blocks of a run. *)
Definition cends (r : res cobjs) : option (list (nat * list hval) * list nat) :=
  match r with
  | Done V s => Some ((fun kv : nat * cobj => (kv.1, arrays kv.2)) <$> map_to_list V, (map_to_list (heap s)).*1)
  | _ => None
  end.
