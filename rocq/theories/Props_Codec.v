(** Stored pool state: C32, C33, C50. *)
From Verif Require Import Tactics Fees LinearCurve SwapCurve Codec Spec CodecFacts.

(** C32.  Whatever the 324 bytes were before, the written state is read back
    (an uninitialised state is reported as such). *)
Theorem C32_state_roundtrip : forall s dst, swap_state_wf s -> length dst = 324%nat ->
  exists bytes, swap_pack s dst = Ok bytes /\ length bytes = 324%nat /\
    swap_unpack bytes = if st_is_initialized s then Ok s else Err EUninitializedAccount.
Proof. exact swap_roundtrip. Qed.
Print Assumptions C32_state_roundtrip.

(** C32.  Conversely, everything that reads as a pool holds values of the Rust
    types, and writing it back leaves every byte as it was. *)
Theorem C32_state_written_back : forall bytes s, Forall is_u8 bytes -> swap_unpack bytes = Ok s ->
  swap_pack s bytes = Ok bytes /\ swap_state_wf s /\ st_is_initialized s = true.
Proof. exact pack_unpack. Qed.
Print Assumptions C32_state_written_back.

(** C32.  Each curve and the fee schedule on their own. *)
Theorem C32_curve_roundtrip : forall c old, curve_wf c -> unpack_curve (pack_curve c old) = Ok c.
Proof. exact curve_roundtrip. Qed.
Print Assumptions C32_curve_roundtrip.

Theorem C32_fees_roundtrip : forall f, fees_wf f -> unpack_fees (pack_fees f) = f.
Proof. exact fees_roundtrip. Qed.
Print Assumptions C32_fees_roundtrip.

(** A linear pool written over a buffer full of 255 bytes. *)
Example C32_case :
  let s := mk_swap_state true 254 7 11 12 13 14 15 (2 ^ 256 - 1) (mk_fees 0 1 0 1 0 1 0 1)
             (LinearPrice (mk_linear 1 2 3 (2 ^ 64 - 1))) in
  match swap_pack s (repeat 255 324) with
  | Ok bytes => swap_unpack bytes = Ok s /\ nth 291 bytes 0 = 30 /\ nth 292 bytes 0 = 1
  | Err _ => False
  end.
Proof. vm_compute. auto. Qed.

(** C33.  The accounts that are read as a pool are exactly these. *)
Theorem C33_unpack_accepts : forall input,
  (exists s, swap_unpack input = Ok s) <->
  length input = 324%nat /\ nth 0 input 0 = 1 /\ nth 1 input 0 = 1 /\ known_tag (nth 291 input 0).
Proof. exact unpack_accepts. Qed.
Print Assumptions C33_unpack_accepts.

(** C33.  The only errors are these two; in particular no panic. *)
Theorem C33_unpack_errors : forall input e, swap_unpack input = Err e ->
  e = EInvalidAccountData \/ e = EUninitializedAccount.
Proof. exact unpack_clean. Qed.
Print Assumptions C33_unpack_errors.

(** C33.  Zeroed accounts of any size are not pools. *)
Theorem C33_zeroed_not_a_pool : forall n,
  swap_unpack (repeat 0 n) = Err EInvalidAccountData \/
  swap_unpack (repeat 0 n) = Err EUninitializedAccount.
Proof. exact zeroed_not_pool. Qed.
Print Assumptions C33_zeroed_not_a_pool.

Example C33_case :
  let pool := [1; 1] ++ repeat 0 289 ++ [3] ++ repeat 9 32 in
  length pool = 324%nat /\
  (exists s, swap_unpack pool = Ok s /\ st_curve s = Offset 651061555542690057) /\
  swap_unpack (pool ++ [0]) = Err EInvalidAccountData /\
  swap_unpack ([1; 1] ++ repeat 0 289 ++ [4] ++ repeat 9 32) = Err EInvalidAccountData /\
  swap_unpack ([1; 0] ++ repeat 0 289 ++ [3] ++ repeat 9 32) = Err EUninitializedAccount.
Proof.
  vm_compute. repeat split. eexists. split; reflexivity.
Qed.

(** C50. *)
Theorem C50_curve_equality : forall c1 c2, curve_wf c1 -> curve_wf c2 ->
  (curve_eqb c1 c2 = true <-> c1 = c2).
Proof. exact curve_eqb_eq. Qed.
Print Assumptions C50_curve_equality.

Example C50_case : curve_eqb (ConstantPrice 5) (Stable 5) = false /\
  curve_eqb (Offset 5) (Offset 6) = false /\ curve_eqb (Offset 5) (Offset 5) = true.
Proof. vm_compute. auto. Qed.
