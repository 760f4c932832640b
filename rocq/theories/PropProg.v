(** * PropProg: programs over tensor variables (C04) *)
From stdpp Require Import gmap list.
From Coq Require Import ZArith Lia Floats.SpecFloat.
From Verif Require Import Base Mem Spec SpecReal SpecNN SpecNorm SpecHeap SpecProg ModelCore ModelBasic ModelMath ModelNN.
From Verif Require Import Fixture ProofQuiet ProofProg ExampleProg.
Open Scope Z_scope.

(** C04.  A program is a list of API calls, element writes and destructions over
    tensor variables ([SpecProg.cmd]).  [astep] says what each command does to the
    mathematical values of the variables, without mentioning memory; a program is
    [safe] when that specification covers each of its commands, whatever values
    it allows the earlier ones to have produced.

    Then every command of the program runs without undefined behaviour, abort or
    divergence; the statuses [sts] and the final values [A] are ones the
    specification allows; the memory behind different variables is disjoint; and
    the live blocks are exactly those of the live variables and the blocks [Ls]
    leaked by the commands marked as leaking: failed calls and calls whose
    output variable was live. *)
Theorem C04_programs : forall E cs,
  alloc_all E -> hooks_ok E -> rand_ok E -> safe E (∅, 0%nat) cs ->
  exists sts A r clean h s Ls, asteps E (∅, 0%nat) cs sts (A, r) clean /\
    exec_all cs (fun _ => HUndef) E (St ∅ 0 0) = Done (sts, h) s /\ rpos s = r /\
    (forall x T, A !! x = Some T -> exists p, h x = HPtr p /\ holds (heap s) p T) /\
    (forall x y p q b, is_Some (A !! x) -> is_Some (A !! y) -> x <> y -> h x = HPtr p -> h y = HPtr q ->
       b ∈ parts (heap s) p -> b ∈ parts (heap s) q -> False) /\
    (forall b, is_Some (heap s !! b) <->
       (exists x p, is_Some (A !! x) /\ h x = HPtr p /\ b ∈ parts (heap s) p) \/ b ∈ ⋃ Ls) /\
    (forall x p b, is_Some (A !! x) -> h x = HPtr p -> b ∈ parts (heap s) p -> b ∉ ⋃ Ls) /\
    Forall2 (fun b (L : gset nat) => b = true -> L = ∅) clean Ls.
Proof. intros E cs HE HK HR. exact (program E HE HK HR cs). Qed.
Print Assumptions C04_programs.

(** C40, C04.  No call but dropout takes a random number, so [r] above counts
    the elements of the tensors dropped out so far. *)
Theorem C40_only_dropout_draws : forall x o E s r s',
  (forall t d, x <> ODropout t d) -> run_op x o E s = Done r s' -> rpos s' = rpos s.
Proof. exact run_quiet. Qed.
Print Assumptions C40_only_dropout_draws.

(** A program of nine commands: two constant tensors, an element written, their
    sum, one of them destroyed, relu, a refused reshape, a failing
    sigmoid, and a squeeze into a variable in use. *)
Example C04_programs_ex : safe E0 (∅, 0%nat) ex_prog.
Proof. exact ex_safe. Qed.
Example C04_programs_ex_values : exists h s,
  exec_all ex_prog (fun _ => HUndef) E0 (St ∅ 0 0) =
    Done ([SUCCESS; SUCCESS; SUCCESS; SUCCESS; SUCCESS; SUCCESS; DIMENSIONS_MISMATCH; NOT_SUPPORTED; SUCCESS], h) s /\
  (exists p, h 2%nat = HPtr p /\ holds (heap s) p (AT I32 cpu [2] [VI 5; VI 0])) /\
  (exists p, h 0%nat = HPtr p /\ holds (heap s) p (AT I32 cpu [2; 1] [VI 5; VI 0])).
Proof.
  destruct (C04_programs E0 ex_prog E0_alloc E0_hooks) as (sts & A & r & cl & h & s & Ls & H1 & H2 & _ & H3 & _); [intros k; cbn; lia|exact ex_safe|].
  apply ex_only in H1 as (-> & -> & _). exists h, s. split; [exact H2|]. split; by apply H3.
Qed.
