(** Base 58, the notation for public keys.  A key is 32 bytes; as everywhere in the
    model it is the number with these bytes in little-endian order. *)
From Coq Require Import String Ascii.
From Verif Require Import Ints Codec Entry.

Definition alphabet : list Z := bytes_of "123456789ABCDEFGHJKLMNPQRSTUVWXYZabcdefghijkmnopqrstuvwxyz".
Fixpoint position (c : Z) (l : list Z) : Z :=
  match l with
  | [] => 0
  | x :: l' => if x =? c then 0 else 1 + position c l'
  end.
Definition base58 (s : string) : Z :=
  from_le (rev (to_le 32 (fold_left (fun acc c => 58 * acc + position c alphabet) (bytes_of s) 0))).
