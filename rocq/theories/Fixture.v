(** * Fixture: concrete environments and states for the examples beside the
    property theorems *)
From stdpp Require Import gmap list.
From Coq Require Import ZArith Lia Floats.SpecFloat.
From Coq Require Import ZifyNat.
From Verif Require Import Base Mem Spec ModelCore Logic ProofCore ProofCore2.
Open Scope Z_scope.

Definition cpu : device := Dev 0 0.

(** An environment that always has memory. *)
Definition E0 : env :=
  Env (fun _ _ _ => true) 0 0 (fun k => Z.of_nat k * 37) (fun x => x) (fun _ => INTERNAL_ERROR) 1000.
(** One whose [n]-th allocation request is refused. *)
Definition Erefuse (n : nat) : env :=
  Env (fun _ k _ => negb (Nat.eqb k n)) 0 0 (fun k => Z.of_nat k * 37) (fun x => x)
      (fun _ => INTERNAL_ERROR) 1000.
(** One with user-installed allocator hooks. *)
Definition Ehooks (a d : nat) : env :=
  Env (fun _ _ _ => true) a d (fun k => Z.of_nat k * 37) (fun x => x) (fun _ => INTERNAL_ERROR) 1000.
Definition s_empty : st := St ∅ 0 0.

Lemma E0_alloc : alloc_all E0. Proof. done. Qed.
Lemma E0_hooks : hooks_ok E0. Proof. done. Qed.
Lemma s_empty_wf : wf s_empty. Proof. intros b [x Hx]. done. Qed.

(** A memory holding the tensors [Ts]; the [k]-th has handle 5k. *)
Definition slot (k : nat) (T : atensor) : gmap nat block :=
  tensor_map 0 (5 * k) (5 * k + 1) (5 * k + 2) (5 * k + 3) (5 * k + 4)
    (dtype_of (a_type T)) (a_dev T) (a_dims T) (cells (a_type T) (a_vals T)).
Fixpoint slots (k : nat) (Ts : list atensor) : gmap nat block :=
  match Ts with [] => ∅ | T :: Ts => slot k T ∪ slots (S k) Ts end.
Definition fx (Ts : list atensor) : st := St (slots 0 Ts) (5 * length Ts) 0.

Lemma slot_dom k T b : is_Some (slot k T !! b) -> (5 * k <= b < 5 * k + 5)%nat.
Proof. unfold slot. rewrite tensor_map_dom. lia. Qed.
Lemma slots_dom k Ts b : is_Some (slots k Ts !! b) -> (5 * k <= b < 5 * (k + length Ts))%nat.
Proof.
  revert k. induction Ts as [|T Ts IH]; intros k; cbn [slots length].
  - intros [x Hx]. done.
  - rewrite lookup_union_is_Some. intros [H|H].
    + apply slot_dom in H. lia.
    + apply IH in H. lia.
Qed.
Lemma slots_disj k T Ts : slot k T ##ₘ slots (S k) Ts.
Proof.
  apply map_disjoint_spec. intros b x y Hx Hy.
  pose proof (slot_dom k T b ltac:(eauto)). pose proof (slots_dom (S k) Ts b ltac:(eauto)). lia.
Qed.
Lemma slot_owns k T : owns 0 (5 * k) T (slot k T).
Proof.
  exists (5 * k + 1)%nat, (5 * k + 2)%nat, (5 * k + 3)%nat, (5 * k + 4)%nat. split; [|done].
  rewrite !NoDup_cons, !elem_of_cons.
  split_and!; try apply NoDup_nil_2; rewrite ?elem_of_nil; lia.
Qed.
Lemma slots_sub k Ts i T : Ts !! i = Some T -> slot (k + i) T ⊆ slots k Ts.
Proof.
  revert k i. induction Ts as [|T' Ts IH]; intros k i Hi; [done|].
  cbn [slots]. destruct i as [|i].
  - cbn in Hi. simplify_eq. rewrite Nat.add_0_r. apply map_union_subseteq_l.
  - cbn in Hi. rewrite Nat.add_succ_r, <-Nat.add_succ_l.
    etrans; [by apply IH|]. apply map_union_subseteq_r. apply slots_disj.
Qed.
Lemma fx_wf Ts : wf (fx Ts).
Proof. intros b Hb. cbn in *. apply slots_dom in Hb. lia. Qed.
Lemma fx_holds Ts i T : Ts !! i = Some T -> valid T -> holds (heap (fx Ts)) (5 * i) T.
Proof.
  intros Hi HT. eapply owns_holds; [done|apply slot_owns|]. by apply (slots_sub 0).
Qed.

(** Decides validity of a literal tensor. *)
Ltac lit_fits :=
  split_and!; [repeat constructor; lia|vm_compute; discriminate|vm_compute; discriminate].
Ltac lit_valid := split; [lit_fits|reflexivity].

(** A few literal tensors. *)
Definition T_i32 : atensor := AT I32 cpu [2; 3] (VI <$> [5; -7; 0; 12; 3; -1]).
Definition T_i32' : atensor := AT I32 cpu [2; 3] (VI <$> [1; 2; 3; 4; 5; 6]).
Definition T_f32 : atensor :=
  AT F32 cpu [2; 2] ((fun z => VF (flt_of_Z F32 z)) <$> [1; -2; 3; 100]).
Definition T_f64 : atensor :=
  AT F64 cpu [4] ((fun z => VF (flt_of_Z F64 z)) <$> [1; 4; 9; 2]).
Definition T_u8 : atensor := AT U8 cpu [3; 1; 2] (VI <$> [1; 2; 3; 4; 5; 255]).
Definition T_scalar : atensor := AT I32 cpu [] [VI 3].

Lemma T_i32_valid : valid T_i32. Proof. lit_valid. Qed.
Lemma T_i32'_valid : valid T_i32'. Proof. lit_valid. Qed.
Lemma T_f32_valid : valid T_f32. Proof. lit_valid. Qed.
Lemma T_f64_valid : valid T_f64. Proof. lit_valid. Qed.
Lemma T_u8_valid : valid T_u8. Proof. lit_valid. Qed.
Lemma T_scalar_valid : valid T_scalar. Proof. lit_valid. Qed.

(** Running the model on literals. *)
Lemma run_ex {A} (m : M A) E s (P : A -> st -> Prop) :
  match m E s with Done a s' => P a s' | _ => False end ->
  exists a s', m E s = Done a s' /\ P a s'.
Proof. destruct (m E s) as [a s'| | |]; try done. eauto. Qed.

(** What a caller sees of a result tensor: status, dims and elements. *)
Definition got {A} (r : res A) : option A := match r with Done a _ => Some a | _ => None end.
Definition peek (E : env) (s : st) (r : status * hval) : option (status * list Z * list val) :=
  dims ← got (tensor_dims r.2 E s);
  dt ← got (tensor_dtype r.2 E s);
  t ← tc_of (d_code dt);
  n ← got (tensor_size r.2 E s);
  px ← got (tensor_data r.2 E s);
  vs ← mapM (fun i => got (loadi px t (Z.of_nat i) E s)) (seq 0 (Z.to_nat n));
  Some (r.1, dims, vs).
