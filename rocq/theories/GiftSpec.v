(** Sales to a linear pool, one after the other. *)
From Verif Require Import Ints LinearCurve SwapCurve Spec.

(** [sales c ns a b a' b']: people sell [ns] bonded tokens in this order to a pool that holds [a] units
    of collateral and [b] bonded tokens, every sale succeeds, and the pool is left with [a'] and [b']. *)
Inductive sales (c : linear_curve) : list Z -> Z -> Z -> Z -> Z -> Prop :=
| no_sale a b : sales c [] a b a b
| one_sale n ns a b t x a' b' : is_u64 n -> is_u64 b -> linear_swap c n b a BtoA = Val (t, x) ->
    sales c ns (a - x) (b + t) a' b' -> sales c (n :: ns) a b a' b'.
