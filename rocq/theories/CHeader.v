(** The C bindings in inc/token-swap.h, with the layout every C compiler for the
    platforms concerned uses: little-endian, enumerations of 4 bytes, every member
    aligned to its size.  Model; no proofs. *)
From Verif Require Import Ints Codec.

(** 13-22: the denominator comes first. *)
Record c_fee := mk_c_fee { c_denominator : Z; c_numerator : Z }.

(** 27-83, 85-109: [TokenSwap_SwapInstruction]. *)
Inductive c_instruction :=
| CInitialize (fee : c_fee) | CSwap (amount : Z) | CDeposit (amount : Z) | CWithdraw (amount : Z).

Definition c_tag (i : c_instruction) : Z :=
  match i with CInitialize _ => 0 | CSwap _ => 1 | CDeposit _ => 2 | CWithdraw _ => 3 end.

(** The 24 bytes of an instruction: the tag, 4 bytes of padding, 16 bytes of the union
    of which the last 8 are used by [Initialize] only.  The unused bytes [pad] and
    [spare] can hold anything. *)
Definition c_bytes (i : c_instruction) (pad spare : list Z) : list Z :=
  to_le 4 (c_tag i) ++ firstn 4 pad ++
  match i with
  | CInitialize f => to_le 8 (c_denominator f) ++ to_le 8 (c_numerator f)
  | CSwap n | CDeposit n | CWithdraw n => to_le 8 n ++ firstn 8 spare
  end.

(** 111-135: [TokenSwap_SwapInfo]. *)
Record c_swap_info := mk_c_info { c_token_a : Z; c_token_b : Z; c_pool_mint : Z; c_info_fee : c_fee }.

(** 140-162: [TokenSwap_State], a tag at offset 0 and the pool at offset 8; the
    enumeration has the values 0 and 1. *)
Inductive c_state := CUnallocated | CInit (s : c_swap_info) | COther.

Definition c_read (l : list Z) : c_state :=
  match from_le (firstn 4 l) with
  | 0 => CUnallocated
  | 1 => CInit (mk_c_info (from_le (slice 8 32 l)) (from_le (slice 40 32 l)) (from_le (slice 72 32 l))
                 (mk_c_fee (from_le (slice 104 8 l)) (from_le (slice 112 8 l))))
  | _ => COther
  end.
