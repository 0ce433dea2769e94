(** SHA-256 (FIPS 180-4) on byte lists.  The Go code imports crypto/sha256 (hash.go:4, g2.go:4); the other model files
    take the hash function as a parameter [sha], and this definition is the instance.
    - A message is a list of bytes; a 32-bit word is an integer in [0, 2^32). *)
Require Import ZArith Lia Bool List.
From Verif Require Import Words ModelRepr ReprProofs ReprProofs2.
Import ListNotations.
Open Scope Z_scope.

Definition m32 (x : Z) : Z := Z.land x 0xffffffff.
Definition add32 (x y : Z) : Z := m32 (x + y).
Definition rotr (x n : Z) : Z := Z.lor (Z.shiftr x n) (m32 (Z.shiftl x (32 - n))).
(** FIPS 180-4 section 4.1.2; the complement of x is 2^32 - 1 - x *)
Definition Ch (x y z : Z) : Z := Z.lxor (Z.land x y) (Z.land (0xffffffff - x) z).
Definition Maj (x y z : Z) : Z := Z.lxor (Z.lxor (Z.land x y) (Z.land x z)) (Z.land y z).
Definition bsig0 (x : Z) : Z := Z.lxor (Z.lxor (rotr x 2) (rotr x 13)) (rotr x 22).
Definition bsig1 (x : Z) : Z := Z.lxor (Z.lxor (rotr x 6) (rotr x 11)) (rotr x 25).
Definition ssig0 (x : Z) : Z := Z.lxor (Z.lxor (rotr x 7) (rotr x 18)) (Z.shiftr x 3).
Definition ssig1 (x : Z) : Z := Z.lxor (Z.lxor (rotr x 17) (rotr x 19)) (Z.shiftr x 10).
(** section 4.2.2 *)
Definition sha_K : list Z :=
  [
    0x428a2f98; 0x71374491; 0xb5c0fbcf; 0xe9b5dba5; 0x3956c25b; 0x59f111f1; 0x923f82a4; 0xab1c5ed5;
    0xd807aa98; 0x12835b01; 0x243185be; 0x550c7dc3; 0x72be5d74; 0x80deb1fe; 0x9bdc06a7; 0xc19bf174;
    0xe49b69c1; 0xefbe4786; 0x0fc19dc6; 0x240ca1cc; 0x2de92c6f; 0x4a7484aa; 0x5cb0a9dc; 0x76f988da;
    0x983e5152; 0xa831c66d; 0xb00327c8; 0xbf597fc7; 0xc6e00bf3; 0xd5a79147; 0x06ca6351; 0x14292967;
    0x27b70a85; 0x2e1b2138; 0x4d2c6dfc; 0x53380d13; 0x650a7354; 0x766a0abb; 0x81c2c92e; 0x92722c85;
    0xa2bfe8a1; 0xa81a664b; 0xc24b8b70; 0xc76c51a3; 0xd192e819; 0xd6990624; 0xf40e3585; 0x106aa070;
    0x19a4c116; 0x1e376c08; 0x2748774c; 0x34b0bcb5; 0x391c0cb3; 0x4ed8aa4a; 0x5b9cca4f; 0x682e6ff3;
    0x748f82ee; 0x78a5636f; 0x84c87814; 0x8cc70208; 0x90befffa; 0xa4506ceb; 0xbef9a3f7; 0xc67178f2 ].
(** section 5.3.3 *)
Definition sha_H0 : list Z :=
  [
    0x6a09e667; 0xbb67ae85; 0x3c6ef372; 0xa54ff53a; 0x510e527f; 0x9b05688c; 0x1f83d9ab; 0x5be0cd19 ].

(** section 5.1.1: a one bit, zeros, the length in bits as a 64-bit integer *)
Definition sha_pad (l : list Z) : list Z :=
  let n := Z.of_nat (length l) in
  l ++ [128] ++ repeat 0 (Z.to_nat ((55 - n) mod 64)) ++ map (fun i => Z.land (Z.shiftr (8 * n) (8 * i)) 255) [7; 6; 5; 4; 3; 2; 1; 0].
Fixpoint sha_words (l : list Z) : list Z :=
  match l with
  | a :: b :: c :: d :: t => Z.lor (Z.lor (Z.shiftl a 24) (Z.shiftl b 16)) (Z.lor (Z.shiftl c 8) d) :: sha_words t
  | _ => []
  end.
(** section 6.2.2 step 1; the sixteen latest words, oldest first *)
Fixpoint sha_schedule (n : nat) (w : list Z) : list Z :=
  match n with
  | O => []
  | S n => match w with
           | [] => []
           | w0 :: t => w0 :: sha_schedule n (t ++ [add32 (add32 (ssig1 (nth 14 w 0)) (nth 9 w 0)) (add32 (ssig0 (nth 1 w 0)) w0)])
           end
  end.
(** step 3 *)
Definition sha_round (v : list Z) (kw : Z * Z) : list Z :=
  match v with
  | [a; b; c; d; e; f; g; h] =>
      let t1 := add32 (add32 (add32 h (bsig1 e)) (add32 (Ch e f g) (fst kw))) (snd kw) in
      let t2 := add32 (bsig0 a) (Maj a b c) in
      [add32 t1 t2; a; b; c; add32 d t1; e; f; g]
  | _ => v
  end.
Definition sha_block (H : list Z) (w : list Z) : list Z :=
  map (fun p => add32 (fst p) (snd p)) (combine H (fold_left sha_round (combine sha_K (sha_schedule 64 w)) H)).
Fixpoint sha_blocks (n : nat) (H w : list Z) : list Z :=
  match n with
  | O => H
  | S n => match w with [] => H | _ => sha_blocks n (sha_block H (firstn 16 w)) (skipn 16 w) end
  end.
Definition sha_bytes (x : Z) : list Z := [Z.shiftr x 24; Z.land (Z.shiftr x 16) 255; Z.land (Z.shiftr x 8) 255; Z.land x 255].
Definition sha256 (l : list Z) : list Z :=
  let w := sha_words (sha_pad l) in flat_map sha_bytes (sha_blocks (length w) sha_H0 w).

(** FIPS 180-4 examples: "abc" and the two-block message *)
Example sha256_abc : be_value (sha256 [97; 98; 99]) = 0xba7816bf8f01cfea414140de5dae2223b00361a396177a9cb410ff61f20015ad.
Proof. vm_compute. reflexivity. Qed.
Example sha256_empty : be_value (sha256 []) = 0xe3b0c44298fc1c149afbf4c8996fb92427ae41e4649b934ca495991b7852b855.
Proof. vm_compute. reflexivity. Qed.
Example sha256_two_blocks : be_value (sha256 [97; 98; 99; 100; 98; 99; 100; 101; 99; 100; 101; 102; 100; 101; 102; 103; 101; 102; 103; 104; 102; 103; 104; 105; 103; 104; 105; 106; 104; 105; 106; 107; 105; 106; 107; 108; 106; 107; 108; 109; 107; 108; 109; 110; 108; 109; 110; 111; 109; 110; 111; 112; 110; 111; 112; 113]) =
  0x248d6a61d20638b8e5c026930c3e6039a33ce45964ff2167f6ecedd419db06c1.
Proof. vm_compute. reflexivity. Qed.

(** Every digest is 32 bytes. *)
Definition is32 (x : Z) : Prop := 0 <= x < 2 ^ 32.
Lemma m32_ok x : is32 (m32 x).
Proof. unfold m32, is32. change 0xffffffff with (Z.ones 32). rewrite Z.land_ones by lia. apply Z.mod_pos_bound. reflexivity. Qed.
Lemma round_length v kw : length v = 8%nat -> length (sha_round v kw) = 8%nat.
Proof. do 9 (destruct v as [|? v]; try discriminate). reflexivity. Qed.
Lemma rounds_length l : forall v, length v = 8%nat -> length (fold_left sha_round l v) = 8%nat.
Proof. induction l as [|x l IH]; intros v L; [exact L|]. cbn [fold_left]. apply IH, round_length, L. Qed.
Lemma block_ok H w : length H = 8%nat -> length (sha_block H w) = 8%nat /\ Forall is32 (sha_block H w).
Proof.
  intros L. unfold sha_block. rewrite map_length, combine_length, rounds_length, L by exact L. split; [reflexivity|].
  apply Forall_map, Forall_forall. intros p _. apply m32_ok.
Qed.
Lemma blocks_ok n : forall H w, length H = 8%nat -> Forall is32 H -> length (sha_blocks n H w) = 8%nat /\ Forall is32 (sha_blocks n H w).
Proof.
  induction n as [|n IH]; intros H w L F; [exact (conj L F)|]. cbn [sha_blocks]. destruct w as [|x w]; [exact (conj L F)|].
  destruct (block_ok H (firstn 16 (x :: w)) L) as [L' F']. apply IH; assumption.
Qed.
Lemma land255 x : isByte (Z.land x 255).
Proof. unfold isByte. change 255 with (Z.ones 8). rewrite Z.land_ones by lia. apply Z.mod_pos_bound. reflexivity. Qed.
Lemma bytes_ok x : is32 x -> Forall isByte (sha_bytes x).
Proof.
  intros [A B]. unfold sha_bytes. repeat constructor; try apply land255; unfold isByte; rewrite Z.shiftr_div_pow2 by lia.
  - apply Z.div_pos; [exact A|reflexivity].
  - apply Z.div_lt_upper_bound; [reflexivity|]. exact B.
Qed.
Lemma digest_ok l : Forall is32 l -> Forall isByte (flat_map sha_bytes l) /\ length (flat_map sha_bytes l) = (4 * length l)%nat.
Proof.
  induction l as [|x l IH]; intros F; [split; [constructor|reflexivity]|]. inversion F as [|? ? X F']. subst. destruct (IH F') as [A B].
  cbn [flat_map]. rewrite app_length, B. split; [apply Forall_app; split; [exact (bytes_ok x X)|exact A]|]. cbn [length sha_bytes]. lia.
Qed.
Theorem sha256_ok l : Forall isByte (sha256 l) /\ length (sha256 l) = 32%nat.
Proof.
  unfold sha256. set (w := sha_words (sha_pad l)).
  destruct (blocks_ok (length w) sha_H0 w eq_refl) as [L F]; [repeat (constructor; [split; [discriminate|reflexivity]|]); constructor|].
  destruct (digest_ok _ F) as [A B]. rewrite B, L. exact (conj A eq_refl).
Qed.
