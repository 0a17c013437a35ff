(** Interface descriptions on the ledger. *)
From Verif Require Import Ints Codec Token Processor History Idl.

(** The account [k] holds a description: the bytes of the tag, authority, length, data,
    and room for more. *)
Definition described (w : world) (k authority : Z) (data : list Z) : Prop :=
  is_pubkey authority /\ Z.of_nat (length data) < 2 ^ 32 /\ a_owner (w k) = PROGRAM_ID /\
  exists rest, a_data (w k) =
    DRaw ([24; 70; 98; 191; 58; 144; 123; 158] ++ to_le 32 authority ++ to_le 4 (Z.of_nat (length data)) ++ data ++ rest).

(** The two addresses are derived from the program: they differ, nobody signs with
    them, and no account of the program is at the second one, which only serves to derive
    the first. *)
Definition idl_env_ok (ie : idl_env) (signers : list Z) (w : world) : Prop :=
  idl_address ie <> idl_base ie /\ idl_address ie <> SYSTEM_PROGRAM_ID /\ idl_base ie <> SYSTEM_PROGRAM_ID /\
  ~ In (idl_address ie) signers /\ ~ In (idl_base ie) signers /\ a_owner (w (idl_base ie)) <> PROGRAM_ID.

(** Exactly what each instruction asks for. *)
Definition room (w : world) (k : Z) (data : list Z) : Prop :=
  Z.of_nat (length data) < 2 ^ 32 /\ (44 + length data <= length (raw_of (a_data (w k))))%nat.
Definition idl_asks (ie : idl_env) (signers writable accounts : list Z) (w : world) (i : idl_instr) : Prop :=
  match i with
  | IdlCreate n => exists from rest,
      accounts = from :: idl_address ie :: idl_base ie :: SYSTEM_PROGRAM_ID :: PROGRAM_ID :: rest /\
      In from signers /\ In (idl_address ie) writable /\ 44 <= (44 + n) mod 2 ^ 64 <= 10240 /\
      a_owner (w (idl_address ie)) = SYSTEM_PROGRAM_ID /\ a_data (w (idl_address ie)) = DRaw []
  | IdlCreateBuffer => exists buffer au rent rest,
      accounts = buffer :: au :: rent :: rest /\ a_owner (w buffer) = PROGRAM_ID /\
      In buffer writable /\ In au signers /\ au <> 0 /\
      let l := raw_of (a_data (w buffer)) in
      from_le (firstn 8 l) = 0 /\ 44 + from_le (firstn 4 (skipn 40 l)) <= Z.of_nat (length l) /\ (44 <= length l)%nat
  | IdlWrite d => exists k au rest data,
      accounts = k :: au :: rest /\ described w k au data /\ In k writable /\ In au signers /\ au <> 0 /\ room w k (data ++ d)
  | IdlSetAuthority n => exists k au rest data,
      accounts = k :: au :: rest /\ described w k au data /\ In k writable /\ In au signers /\ au <> 0
  | IdlSetBuffer => exists b k au rest data old,
      accounts = b :: k :: au :: rest /\ described w b au data /\ described w k au old /\
      In b writable /\ In k writable /\ In au signers /\ au <> 0 /\ room w k data
  end.
