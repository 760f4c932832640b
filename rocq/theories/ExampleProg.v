(** * ExampleProg: a program the specification of programs covers *)
From stdpp Require Import gmap list.
From Coq Require Import ZArith Lia Floats.SpecFloat.
From Verif Require Import Base Mem Spec SpecReal SpecNN SpecNorm SpecHeap SpecHist SpecProg ModelCore ModelBasic ModelMath ModelNN.
From Verif Require Import Logic ProofCore ProofFloat3 ProofSqrt Fixture.
Open Scope Z_scope.

Definition two : spec_float := flt_of_Z F64 2.
Definition three : spec_float := flt_of_Z F64 3.
Definition ex_prog : list cmd :=
  [ Call 0 (KFull I32 cpu [2; 1] two);
    Call 1 (KFull I32 cpu [2; 1] three);
    SetItem 0 1 I32 (VI (-7));
    Call 2 (KBinary OpAdd 0 1);
    Destroy 0;
    Call 0 (KRelu 2);
    Call 4 (KReshape 0 [3]);
    Call 3 (KSigmoid 2);
    Call 2 (KSqueeze 0 []) ].

Definition X0 : atensor := AT I32 cpu [2; 1] [VI 2; VI 2].
Definition X1 : atensor := AT I32 cpu [2; 1] [VI 3; VI 3].
Definition X0' : atensor := AT I32 cpu [2; 1] [VI 2; VI (-7)].
Definition X2 : atensor := AT I32 cpu [2; 1] [VI 5; VI (-4)].
Definition X3 : atensor := AT I32 cpu [2; 1] [VI 5; VI 0].
Definition X4 : atensor := AT I32 cpu [2] [VI 5; VI 0].

Definition v1 : gmap nat atensor := <[0%nat := X0]> ∅.
Definition v2 : gmap nat atensor := <[1%nat := X1]> v1.
Definition v3 : gmap nat atensor := <[0%nat := X0']> v2.
Definition v4 : gmap nat atensor := <[2%nat := X2]> v3.
Definition v5 : gmap nat atensor := delete 0%nat v4.
Definition v6 : gmap nat atensor := <[0%nat := X3]> v5.
Definition v8 : gmap nat atensor := delete 3%nat v6.
Definition v9 : gmap nat atensor := <[2%nat := X4]> v8.

(** What the specification allows for each command. *)
Definition only (a : gmap nat atensor * nat) (c : cmd) (st : status) (a' : gmap nat atensor * nat) (b : bool) : Prop :=
  astep E0 a c st a' b /\ forall st' a'' b', astep E0 a c st' a'' b' -> st' = st /\ a'' = a' /\ b' = b.

Ltac no_conv := try (match goal with H : _ = KConv _ _ _ _ _ _ \/ _ |- _ => exfalso; naive_solver end).
Ltac look := repeat match goal with H : ?A !! _ = Some ?T |- _ => vm_compute in H; injection H as <- end.


Lemma gives_step A r x c T k A' r' b : gives E0 A r c T k -> A' = <[x := T]> A -> r' = (r + k)%nat ->
  b = bool_decide (A !! x = None) -> astep E0 (A, r) (Call x c) SUCCESS (A', r') b.
Proof. intros H -> -> ->. by constructor. Qed.

Lemma only_gives A r x c T k A' r' b : gives E0 A r c T k -> A' = <[x := T]> A -> r' = (r + k)%nat ->
  b = bool_decide (A !! x = None) ->
  (forall T' k', gives E0 A r c T' k' -> T' = T /\ k' = k) -> (forall st, ~ refused A c st) -> (forall st, ~ fails E0 A c st) ->
  only (A, r) (Call x c) SUCCESS (A', r') b.
Proof.
  intros H -> -> -> U R F. split; [by constructor|]. intros st a b H'. inversion H'; subst; clear H'.
  - destruct (U _ _ H7) as [-> ->]. done.
  - by destruct (R _ H7).
  - by destruct (F _ H7).
Qed.

Ltac none := intros ? Hn; inversion Hn; subst; no_conv; look; try done;
  try (match goal with H : ~ (_ /\ _) |- _ => by destruct H end);
  try (match goal with H : Exists _ [] |- _ => by inversion H end).

Lemma step1 : only (∅, 0%nat) (Call 0 (KFull I32 cpu [2; 1] two)) SUCCESS (v1, 0%nat) true.
Proof.
  apply (only_gives _ _ _ _ X0 0); [|done|done|by rewrite bool_decide_eq_true_2| |none|none].
  - eapply (g_full _ _ _ I32 cpu [2; 1] two (VI 2)); [lit_fits|done|vm_compute; done].
  - intros T k H. inversion H; subst; no_conv. replace v with (VI 2) by (vm_compute in H8; congruence). done.
Qed.
Lemma step2 : only (v1, 0%nat) (Call 1 (KFull I32 cpu [2; 1] three)) SUCCESS (v2, 0%nat) true.
Proof.
  apply (only_gives _ _ _ _ X1 0); [|done|done|by rewrite bool_decide_eq_true_2| |none|none].
  - eapply (g_full _ _ _ I32 cpu [2; 1] three (VI 3)); [lit_fits|done|vm_compute; done].
  - intros T k H. inversion H; subst; no_conv. replace v with (VI 3) by (vm_compute in H8; congruence). done.
Qed.
Lemma step3 : only (v2, 0%nat) (SetItem 0 1 I32 (VI (-7))) SUCCESS (v3, 0%nat) true.
Proof.
  split.
  - apply (a_set E0 v2 0 0 X0 1 (VI (-7))); [done|cbn; lia].
  - intros st a b H. inversion H; subst; clear H. look. done.
Qed.
Lemma add1 t o a b w c : val_ok t a -> val_ok t b -> bin_spec t o a b (Some w) -> bin_val t o a b = Some c -> w = c.
Proof. intros Ha Hb H e. pose proof (bin_spec_unique _ _ _ _ _ _ H (bin_val_spec t o a b Ha Hb)) as K. congruence. Qed.
Lemma step4 : only (v3, 0%nat) (Call 2 (KBinary OpAdd 0 1)) SUCCESS (v4, 0%nat) true.
Proof.
  assert (init X0') by (repeat constructor; vm_compute; done). assert (init X1) by (repeat constructor; vm_compute; done).
  apply (only_gives _ _ _ _ X2 0); [|done|done|by rewrite bool_decide_eq_true_2| |none|none].
  - eapply (g_binary _ _ _ OpAdd 0 1 X0' X1); [done..|by split_and!|done|done|done|done| |].
    + repeat constructor; vm_compute; done.
    + constructor; [|constructor; [|constructor]]; apply bin_val_spec; vm_compute; done.
  - intros T k Hg. inversion Hg; subst; no_conv. look. split; [|done]. unfold X2. cbn [a_type a_dev a_dims a_vals X0' X1] in *.
    match goal with F : Forall3 _ _ _ _ |- _ => inversion F as [|? ? ? ? ? ? F1 F2]; subst; inversion F2 as [|? ? ? ? ? ? F3 F4]; subst; inversion F4; subst end.
    apply (add1 _ _ _ _ _ (VI 5)) in F1; [|done..]. apply (add1 _ _ _ _ _ (VI (-4))) in F3; [|done..]. by subst.
Qed.
Lemma step5 : only (v4, 0%nat) (Destroy 0) SUCCESS (v5, 0%nat) true.
Proof.
  split.
  - by apply (a_destroy E0 v4 0 0 X0').
  - intros st a b H. inversion H; subst; clear H. done.
Qed.
Lemma step6 : only (v5, 0%nat) (Call 0 (KRelu 2)) SUCCESS (v6, 0%nat) true.
Proof.
  apply (only_gives _ _ _ _ X3 0); [|done|done|by rewrite bool_decide_eq_true_2| |none|none].
  - eapply (g_relu _ _ _ 2 X2); [done|repeat constructor; vm_compute; done|].
    constructor; [|constructor; [|constructor]]; (split; [|]); cbn; intros ?; try done; lia.
  - intros T k Hg. inversion Hg; subst; no_conv. look. split; [|done]. unfold X3. cbn [a_type a_dev a_dims a_vals X2] in *.
    match goal with F : Forall2 _ _ _ |- _ => inversion F as [|? ? ? ? F1 F2]; subst; inversion F2 as [|? ? ? ? F3 F4]; subst; inversion F4; subst end.
    destruct F1 as [F1 _], F3 as [_ F3]. rewrite F1 by (cbn; lia). rewrite F3 by (cbn; lia). done.
Qed.
Lemma step7 : only (v6, 0%nat) (Call 4 (KReshape 0 [3])) DIMENSIONS_MISMATCH (v6, 0%nat) true.
Proof.
  split.
  - apply a_refused. apply (r_reshape _ 0 X3); [done| |done|done]. intros [|[|k]]; cbn [take]; by vm_compute.
  - intros st a b H. inversion H; subst; clear H.
    + inversion H7; subst; no_conv. by look.
    + inversion H7; subst. done.
    + inversion H7.
Qed.
Lemma step8 : only (v6, 0%nat) (Call 3 (KSigmoid 2)) NOT_SUPPORTED (v8, 0%nat) false.
Proof.
  split.
  - apply a_fails. by apply (f_sigmoid _ _ 2 X2).
  - intros st a b H. inversion H; subst; clear H.
    + inversion H7; subst; no_conv. by look.
    + inversion H7.
    + inversion H7; subst. done.
Qed.
Lemma step9 : only (v8, 0%nat) (Call 2 (KSqueeze 0 [])) SUCCESS (v9, 0%nat) false.
Proof.
  apply (only_gives _ _ _ _ X4 0); [|done|done|by rewrite bool_decide_eq_false_2| |none|none].
  - apply (g_squeeze_all _ _ _ 0 X3); [done|]. repeat constructor; done.
  - intros T k Hg. inversion Hg; subst; no_conv; look; done.
Qed.

Lemma only_safe a c st a' b cs : only a c st a' b -> safe E0 a' cs -> safe E0 a (c :: cs).
Proof. intros [H1 H2] S. split; [eauto|]. intros st' a'' b' H. by destruct (H2 _ _ _ H) as (_ & -> & _). Qed.

Lemma ex_safe : safe E0 (∅, 0%nat) ex_prog.
Proof.
  eapply only_safe; [exact step1|]. eapply only_safe; [exact step2|]. eapply only_safe; [exact step3|].
  eapply only_safe; [exact step4|]. eapply only_safe; [exact step5|]. eapply only_safe; [exact step6|].
  eapply only_safe; [exact step7|]. eapply only_safe; [exact step8|]. eapply only_safe; [exact step9|]. done.
Qed.
Lemma ex_only sts A r bs : asteps E0 (∅, 0%nat) ex_prog sts (A, r) bs ->
  sts = [SUCCESS; SUCCESS; SUCCESS; SUCCESS; SUCCESS; SUCCESS; DIMENSIONS_MISMATCH; NOT_SUPPORTED; SUCCESS] /\
  A = v9 /\ r = 0%nat /\ bs = [true; true; true; true; true; true; true; false; false].
Proof.
  intros H. unfold ex_prog in H.
  Local Ltac one S H := inversion H as [|? ? ? ? ? ? ? ? ? ?K ?L]; subst; clear H;
    match goal with K : astep _ _ _ _ _ _ |- _ => destruct (proj2 S _ _ _ K) as (-> & -> & ->); clear K end.
  one step1 H. one step2 L. one step3 L0. one step4 L. one step5 L0. one step6 L. one step7 L0. one step8 L. one step9 L0.
  inversion L; subst. done.
Qed.
