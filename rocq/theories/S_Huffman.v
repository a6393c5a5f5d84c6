(** Specification of the Huffman code of HPACK (RFC 7541 section 5.2 and Appendix B), used by C25-C27. *)
From Coq Require Import NArith Bool List.
From Verif Require Import Base.
Import ListNotations.
Local Open Scope N_scope.

(** The [n] low bits of [v], most significant first; the bits of a byte string. *)
Fixpoint num_bits (n : nat) (v : N) : list bool :=
  match n with
  | O => []
  | S k => N.testbit v (N.of_nat k) :: num_bits k v
  end.
Definition text_bits (l : bytes) : list bool := flat_map (num_bits 8) l.

(** Appendix B: the symbols by length of their code word; 256 is EOS. *)
Definition code_lengths : list (nat * list N) := [
  (5%nat, [48; 49; 50; 97; 99; 101; 105; 111; 115; 116]);
  (6%nat, [32; 37; 45; 46; 47; 51; 52; 53; 54; 55; 56; 57; 61; 65; 95; 98; 100; 102; 103; 104; 108; 109; 110; 112; 114; 117]);
  (7%nat, [58; 66; 67; 68; 69; 70; 71; 72; 73; 74; 75; 76; 77; 78; 79; 80; 81; 82; 83; 84; 85; 86; 87; 89; 106; 107; 113; 118; 119; 120; 121; 122]);
  (8%nat, [38; 42; 44; 59; 88; 90]);
  (10%nat, [33; 34; 40; 41; 63]);
  (11%nat, [39; 43; 124]);
  (12%nat, [35; 62]);
  (13%nat, [0; 36; 64; 91; 93; 126]);
  (14%nat, [94; 125]);
  (15%nat, [60; 96; 123]);
  (19%nat, [92; 195; 208]);
  (20%nat, [128; 130; 131; 162; 184; 194; 224; 226]);
  (21%nat, [153; 161; 167; 172; 176; 177; 179; 209; 216; 217; 227; 229; 230]);
  (22%nat, [129; 132; 133; 134; 136; 146; 154; 156; 160; 163; 164; 169; 170; 173; 178; 181; 185; 186; 187; 189; 190; 196; 198; 228; 232; 233]);
  (23%nat, [1; 135; 137; 138; 139; 140; 141; 143; 147; 149; 150; 151; 152; 155; 157; 158; 165; 166; 168; 174; 175; 180; 182; 183; 188; 191; 197; 231; 239]);
  (24%nat, [9; 142; 144; 145; 148; 159; 171; 206; 215; 225; 236; 237]);
  (25%nat, [199; 207; 234; 235]);
  (26%nat, [192; 193; 200; 201; 202; 205; 210; 213; 218; 219; 238; 240; 242; 243; 255]);
  (27%nat, [203; 204; 211; 212; 214; 221; 222; 223; 241; 244; 245; 246; 247; 248; 250; 251; 252; 253; 254]);
  (28%nat, [2; 3; 4; 5; 6; 7; 8; 11; 12; 14; 15; 16; 17; 18; 19; 20; 21; 23; 24; 25; 26; 27; 28; 29; 30; 31; 127; 220; 249]);
  (30%nat, [10; 13; 22; 256])].

(** The code is canonical: words of one length are consecutive numbers in the order of the symbols, and
    the first word of the next length is the next number extended with zeros. *)
Fixpoint number (len : nat) (next : N) (syms : list N) : list (N * list bool) :=
  match syms with
  | [] => []
  | s :: l => (s, num_bits len next) :: number len (next + 1) l
  end.
Fixpoint canonical (prev : nat) (next : N) (classes : list (nat * list N)) : list (N * list bool) :=
  match classes with
  | [] => []
  | (len, syms) :: l =>
    let first := next * 2 ^ N.of_nat (len - prev) in
    number len first syms ++ canonical len (first + N.of_nat (length syms)) l
  end.
Definition code_words : list (N * list bool) := canonical 0 0 code_lengths.

(** The code word of a symbol. *)
Definition huff_word (s : N) : list bool :=
  match find (fun e : N * list bool => fst e =? s) code_words with
  | Some e => snd e
  | None => []
  end.

(** [l] is the code of the symbols [syms]: their words, then at most seven one bits (a strict prefix of
    EOS) filling up the last octet. *)
Definition huff_coded (l : bytes) (syms : list N) : Prop :=
  exists pad, (pad <= 7)%nat /\ text_bits l = flat_map huff_word syms ++ repeat true pad.

Definition bits_prefix (a b : list bool) : Prop := exists c, b = a ++ c.

(** Letters A-Z in lower case. *)
Definition lower_ascii (b : N) : N := if (65 <=? b) && (b <=? 90) then b + 32 else b.
