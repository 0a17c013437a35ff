(** Histories with the ledgers they pass through. *)
From Verif Require Import Ints Fees LinearCurve SwapCurve Codec Token Processor Api History Spec LedgerSpec.

(** [trace e w l w']: the events of [l], each paired with the ledger it leaves
    behind, lead from [w] to [w']. *)
Inductive trace (e : env) : world -> list (event * world) -> world -> Prop :=
| trace_nil : forall w, trace e w [] w
| trace_cons : forall w ev w1 l w2,
    step e w ev w1 -> trace e w1 l w2 -> trace e w ((ev, w1) :: l) w2.

(** The event is a swap on the pool stored at [k]. *)
Definition swaps_on (k : Z) (ev : event) : bool :=
  match ev with
  | Instruction _ (Swap accounts _ _) => nth 0 accounts 0 =? k
  | _ => false
  end.

(** Tokens that the swaps on pool [k] took out of the account [v], net of those
    they put in. *)
Fixpoint drawn (k v : Z) (w : world) (l : list (event * world)) : Z :=
  match l with
  | [] => 0
  | (ev, w1) :: l' => (if swaps_on k ev then balance w v - balance w1 v else 0) + drawn k v w1 l'
  end.

(** The pool's holdings in terms of token A, and the pool tokens in existence. *)
Definition worth (w : world) (s : swap_state) (p : Z) : Z :=
  pool_value p (balance w (st_token_a s)) (balance w (st_token_b s)).
Definition shares (w : world) (s : swap_state) : Z := supply w (st_pool_mint s).
