(** BIP-0039: entropy and checksum as one number, written with words of 11 bits. *)
From Verif Require Import Py Ints_spec Bip39_words Seed_model.

(** the number of a word *)
Definition word_no (w : list Z) (i : Z) : Prop := 0 <= i /\ nth_error english_words (Z.to_nat i) = Some w.
(** [ws] is the sentence of [entropy], 4 j bytes, when the first byte of its SHA-256 is [cs]: 3 j words; the entropy is
    followed by the first j bits of the hash *)
Definition sentence (j cs : Z) (entropy : list Z) (ws : list (list Z)) : Prop :=
  zlen ws = 3 * j /\ exists is, Forall2 word_no ws is /\ be_words 11 is = be_int entropy * 2 ^ j + cs / 2 ^ (8 - j).
(** a way to hand words to the wallet: a list of lines with one or more words each, in small or capital letters *)
Definition capital (w w' : list Z) : Prop := lower w' = w /\ Forall (fun c => 65 <= c <= 90 \/ 97 <= c <= 122) w'.
Definition lines_of (ws : list (list Z)) (lines : list (list Z)) : Prop :=
  exists groups, Forall (fun g => g <> []) groups /\ lines = map join_sp groups /\ Forall2 capital ws (concat groups).
