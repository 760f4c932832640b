(** * SpecHist: a client of the library and the memory it is responsible for *)
From stdpp Require Import gmap list.
From Coq Require Import ZArith Floats.SpecFloat.
From Verif Require Import Base Mem Spec SpecHeap ModelCore ModelBasic ModelMath ModelNN.
Open Scope Z_scope.

(** A client keeps track of the tensors it holds, of its own data buffers, and
    (in our imagination) of the blocks that nobody is responsible for. *)
Record client := Client {
  c_env : env;
  c_live : list nat;      (* handles of the tensors it holds *)
  c_bufs : list nat;      (* buffers it obtained from the allocator hook *)
  c_lost : gset nat;      (* leaked blocks *)
  c_mem : st
}.

(** Both hooks replaced by the pair [a]: aitisa_set_allocator, src/core/allocator.h. *)
Definition with_hooks (a : nat) (E : env) : env :=
  Env (e_alloc_ok E) a a (e_rand E) (e_exp E) (e_garbage E) (e_fuel E).

(** aitisa_create gets NULL or one of the client's buffers. *)
Definition buf_ok (x : oper) (bufs : list nat) : Prop :=
  match x with OCreate _ _ _ _ data _ => data = HNull \/ exists b, data = HPtr b /\ b ∈ bufs | _ => True end.

(** One action of the client.  The arguments of operations are arbitrary. *)
Inductive step : client -> client -> Prop :=
| step_success E V B X s x o p s' :
    buf_ok x B -> ~ self_cast x E s -> run_op x o E s = Done (SUCCESS, HPtr p) s' ->
    step (Client E V B X s) (Client E (p :: V) (filter (fun b => b ∉ handed x) B) X s')
| step_same_type E V B X s x o h s' :
    self_cast x E s -> run_op x o E s = Done (SUCCESS, h) s' ->
    step (Client E V B X s) (Client E V B X s')
| step_failure E V B X s x o st h s' :
    st <> SUCCESS -> run_op x o E s = Done (st, h) s' ->
    step (Client E V B X s) (Client E V B (X ∪ (dom (heap s') ∖ dom (heap s))) s')
| step_query E V B X s q a s' :
    run_query q E s = Done a s' -> step (Client E V B X s) (Client E V B X s')
| step_destroy E V1 p V2 B X s r s' :
    aitisa_destroy (HPtr p) E s = Done r s' ->
    step (Client E (V1 ++ p :: V2) B X s) (Client E (V1 ++ V2) B X s')
| step_destroy_null E V B X s r s' :
    aitisa_destroy HNull E s = Done r s' -> step (Client E V B X s) (Client E V B X s')
| step_write E V B X s p px bytes s' :
    p ∈ V -> tensor_data (HPtr p) E s = Done (HPtr px) s ->
    set_content (HPtr px) (CData bytes) E s = Done tt s' ->
    step (Client E V B X s) (Client E V B X s')
| step_get_buffer E V B X s n c b s' :
    raw_alloc n c E s = Done (HPtr b) s' -> step (Client E V B X s) (Client E V (b :: B) X s')
| step_write_buffer E V B X s b bytes s' :
    b ∈ B -> set_content (HPtr b) (CData bytes) E s = Done tt s' ->
    step (Client E V B X s) (Client E V B X s')
| step_free_buffer E V B1 b B2 X s s' :
    raw_dealloc (HPtr b) E s = Done tt s' ->
    step (Client E V (B1 ++ b :: B2) X s) (Client E V (B1 ++ B2) X s')
| step_forget E V1 p V2 B X s : (* a variable is overwritten or goes out of scope *)
    step (Client E (V1 ++ p :: V2) B X s) (Client E (V1 ++ V2) B (X ∪ list_to_set (parts (heap s) p)) s)
| step_hooks E X s a : (* no tensor alive *)
    step (Client E [] [] X s) (Client (with_hooks a E) [] [] X s).

(** Everything a client can reach from empty memory with matching hooks. *)
Definition reachable (c : client) : Prop :=
  exists E, hooks_ok E /\ rtc step (Client E [] [] ∅ (St ∅ 0 0)) c.

(** The blocks the client is responsible for. *)
Definition owned (c : client) : list nat := (c_live c ≫= parts (heap (c_mem c))) ++ c_bufs c.

(** The same environment, except for what allocators other than the installed one answer. *)
Definition same_hook (E E' : env) : Prop :=
  e_alloc E' = e_alloc E /\ e_dealloc E' = e_dealloc E /\ e_rand E' = e_rand E /\ e_exp E' = e_exp E /\
  e_garbage E' = e_garbage E /\ e_fuel E' = e_fuel E /\
  (forall k n, e_alloc_ok E' (e_alloc E) k n = e_alloc_ok E (e_alloc E) k n).
