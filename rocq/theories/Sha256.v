(** SHA-256 (FIPS 180-4), for messages shorter than 56 bytes (one block).  Used
    by the Anchor macros at compile time to derive the tag of an instruction from
    its name; the crate's source is not in /repo. *)
From Verif Require Import Ints.

Definition word (x : Z) : Z := x mod 2 ^ 32.
Definition rotr (x n : Z) : Z := word (Z.lor (Z.shiftr x n) (Z.shiftl x (32 - n))).
Definition ch (x y z : Z) : Z := Z.lxor (Z.land x y) (Z.land (Z.lxor x (2 ^ 32 - 1)) z).
Definition maj (x y z : Z) : Z := Z.lxor (Z.lxor (Z.land x y) (Z.land x z)) (Z.land y z).
Definition big_sigma0 (x : Z) : Z := Z.lxor (Z.lxor (rotr x 2) (rotr x 13)) (rotr x 22).
Definition big_sigma1 (x : Z) : Z := Z.lxor (Z.lxor (rotr x 6) (rotr x 11)) (rotr x 25).
Definition small_sigma0 (x : Z) : Z := Z.lxor (Z.lxor (rotr x 7) (rotr x 18)) (Z.shiftr x 3).
Definition small_sigma1 (x : Z) : Z := Z.lxor (Z.lxor (rotr x 17) (rotr x 19)) (Z.shiftr x 10).

Definition round_constants : list Z :=
  [1116352408; 1899447441; 3049323471; 3921009573; 961987163; 1508970993;
   2453635748; 2870763221; 3624381080; 310598401; 607225278; 1426881987;
   1925078388; 2162078206; 2614888103; 3248222580; 3835390401; 4022224774;
   264347078; 604807628; 770255983; 1249150122; 1555081692; 1996064986;
   2554220882; 2821834349; 2952996808; 3210313671; 3336571891; 3584528711;
   113926993; 338241895; 666307205; 773529912; 1294757372; 1396182291;
   1695183700; 1986661051; 2177026350; 2456956037; 2730485921; 2820302411;
   3259730800; 3345764771; 3516065817; 3600352804; 4094571909; 275423344;
   430227734; 506948616; 659060556; 883997877; 958139571; 1322822218;
   1537002063; 1747873779; 1955562222; 2024104815; 2227730452; 2361852424;
   2428436474; 2756734187; 3204031479; 3329325298].
Definition initial_hash : list Z :=
  [1779033703; 3144134277; 1013904242; 2773480762; 1359893119; 2600822924;
   528734635; 1541459225].

(** Message schedule: the newest word first. *)
Fixpoint extend (n : nat) (l : list Z) : list Z :=
  match n with
  | O => l
  | S n' =>
      extend n' (word (small_sigma1 (nth 1 l 0) + nth 6 l 0 + small_sigma0 (nth 14 l 0) + nth 15 l 0) :: l)
  end.

Definition compress (h : list Z) (kw : Z * Z) : list Z :=
  match h with
  | [a; b; c; d; e; f; g; hh] =>
      let t1 := hh + big_sigma1 e + ch e f g + fst kw + snd kw in
      let t2 := big_sigma0 a + maj a b c in
      [word (t1 + t2); a; b; c; word (d + t1); e; f; g]
  | _ => h
  end.

Fixpoint be_words (n : nat) (l : list Z) : list Z :=
  match n, l with
  | S n', a :: b :: c :: d :: l' => (((a * 256 + b) * 256 + c) * 256 + d) :: be_words n' l'
  | _, _ => []
  end.
Definition be_bytes (x : Z) : list Z := [x / 2 ^ 24; x / 2 ^ 16 mod 256; x / 2 ^ 8 mod 256; x mod 256].

Definition sha256 (message : list Z) : list Z :=
  let n := length message in
  let bits := 8 * Z.of_nat n in
  let block := message ++ [128] ++ repeat 0 (61 - n) ++ [bits / 256; bits mod 256] in
  let schedule := rev (extend 48 (rev (be_words 16 block))) in
  let h := fold_left compress (combine round_constants schedule) initial_hash in
  flat_map (fun p => be_bytes (word (fst p + snd p))) (combine initial_hash h).
