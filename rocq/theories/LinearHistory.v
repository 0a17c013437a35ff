(** Histories of a linear pool, abstracted to its two balances (C07). *)
From Verif Require Import Ints Fees LinearCurve SwapCurve Spec.

(** [held]: collateral in the pool; [left]: bonded tokens in the pool;
    [sold]: bonded tokens that left the pool and have not come back. *)
Record lpool : Type := mk_lpool { held : Z; left : Z; sold : Z }.

Inductive lop : Type :=
| Buy (s : Z)     (* swap s collateral for bonded tokens *)
| Sell (n : Z)    (* swap n bonded tokens for collateral *)
| GiveA (x : Z)   (* someone sends collateral to the vault *)
| GiveB (x : Z)   (* someone sends circulating bonded tokens to the vault *)
| TopUp (x : Z).  (* someone sends newly issued bonded tokens to the vault *)

(** Balances are u64; an operation that fails, aborts or overflows has no effect. *)
Definition lstep (c : linear_curve) (f : fees) (st : lpool) (o : lop) : lpool :=
  match o with
  | Buy s =>
      match curve_swap (LinearPrice c) s (held st) (left st) AtoB f with
      | Val r =>
          if (0 <=? s) && (s <=? u64_max) && (new_swap_source_amount r <=? u64_max)
          then mk_lpool (new_swap_source_amount r) (new_swap_destination_amount r)
                        (sold st + destination_amount_swapped r)
          else st
      | _ => st
      end
  | Sell n =>
      match curve_swap (LinearPrice c) n (left st) (held st) BtoA f with
      | Val r =>
          if (0 <=? n) && (n <=? u64_max) && (new_swap_source_amount r <=? u64_max)
          then mk_lpool (new_swap_destination_amount r) (new_swap_source_amount r)
                        (sold st - source_amount_swapped r)
          else st
      | _ => st
      end
  | GiveA x =>
      if (0 <=? x) && (held st + x <=? u64_max) then mk_lpool (held st + x) (left st) (sold st) else st
  | GiveB x =>
      if (0 <=? x) && (left st + x <=? u64_max) then mk_lpool (held st) (left st + x) (sold st - x) else st
  | TopUp x =>
      if (0 <=? x) && (left st + x <=? u64_max) then mk_lpool (held st) (left st + x) (sold st) else st
  end.

Definition lrun (c : linear_curve) (f : fees) (st : lpool) (ops : list lop) : lpool :=
  fold_left (lstep c f) ops st.
