(** Lemmas on the frame layer. *)
From Coq Require Import Ascii String NArith ZArith Lia Bool List ZifyBool ZifyNat ZifyN.
From Verif Require Import Base P_Base S_Huffman P_Huffman M_Frame S_Frame.
Import ListNotations.
Local Open Scope N_scope.
Ltac Zify.zify_post_hook ::= Z.div_mod_to_equations.

(** ** Octets of numbers *)
Lemma div_small_mod a k : a < k * 256 -> k <> 0 -> a / k mod 256 = a / k.
Proof. intros H K. apply N.mod_small. apply N.div_lt_upper_bound; assumption. Qed.
Lemma be_enc_2 v : v < 65536 -> be_enc 2 v = octets2 v.
Proof.
  intros H. unfold octets2. cbn [be_enc]. change (256 ^ N.of_nat 1) with 256. change (256 ^ N.of_nat 0) with 1.
  rewrite N.div_1_r, (div_small_mod v 256) by lia. reflexivity.
Qed.
Lemma be_enc_4 v : v < 4294967296 -> be_enc 4 v = octets4 v.
Proof.
  intros H. unfold octets4. cbn [be_enc]. change (256 ^ N.of_nat 3) with 16777216. change (256 ^ N.of_nat 2) with 65536.
  change (256 ^ N.of_nat 1) with 256. change (256 ^ N.of_nat 0) with 1.
  rewrite N.div_1_r, (div_small_mod v 16777216) by lia. reflexivity.
Qed.
Lemma encode_u24_octets v : v < 16777216 -> encode_u24 v = octets3 v.
Proof.
  intros H. unfold encode_u24, octets3. rewrite !N.shiftr_div_pow2. change (2 ^ 16) with 65536. change (2 ^ 8) with 256.
  change (2 ^ 0) with 1. rewrite N.div_1_r, (div_small_mod v 65536) by lia. reflexivity.
Qed.
Lemma octets4_ok v : v < 4294967296 -> bytes_ok (octets4 v).
Proof.
  intros H. unfold octets4. repeat (apply bytes_ok_cons; split); try apply bytes_ok_nil; unfold byte_ok; clear - H; try lia;
  apply N.mod_lt; discriminate.
Qed.
Lemma octets3_ok v : v < 16777216 -> bytes_ok (octets3 v).
Proof.
  intros H. unfold octets3. repeat (apply bytes_ok_cons; split); try apply bytes_ok_nil; unfold byte_ok; clear - H; try lia;
  apply N.mod_lt; discriminate.
Qed.
Lemma octets2_ok v : v < 65536 -> bytes_ok (octets2 v).
Proof.
  intros H. unfold octets2. repeat (apply bytes_ok_cons; split); try apply bytes_ok_nil; unfold byte_ok; clear - H; try lia;
  apply N.mod_lt; discriminate.
Qed.

Lemma get_app n a l : length a = n -> get n (a ++ l) = Ok (be_dec a, l).
Proof. intros H. unfold get. rewrite (take_n_app n a l H). reflexivity. Qed.
Lemma get_1 b l : get 1 (b :: l) = Ok (b, l).
Proof. reflexivity. Qed.
Lemma be_dec_octets4 v : v < 4294967296 -> be_dec (octets4 v) = v.
Proof. intros H. rewrite <- be_enc_4 by exact H. apply be_dec_enc_small. exact H. Qed.
Lemma be_dec_octets2 v : v < 65536 -> be_dec (octets2 v) = v.
Proof. intros H. rewrite <- be_enc_2 by exact H. apply be_dec_enc_small. exact H. Qed.
Lemma get_octets4 v l : v < 4294967296 -> get 4 (octets4 v ++ l) = Ok (v, l).
Proof. intros H. rewrite get_app by reflexivity. rewrite be_dec_octets4 by exact H. reflexivity. Qed.
Lemma get_octets2 v l : v < 65536 -> get 2 (octets2 v ++ l) = Ok (v, l).
Proof. intros H. rewrite get_app by reflexivity. rewrite be_dec_octets2 by exact H. reflexivity. Qed.

Lemma octets4_of a b c d : a < 256 -> b < 256 -> c < 256 -> d < 256 ->
  exists v, v < 4294967296 /\ [a; b; c; d] = octets4 v.
Proof.
  intros. exists (a * 16777216 + b * 65536 + c * 256 + d). split; [lia|]. unfold octets4.
  f_equal; [lia|]. f_equal; [lia|]. f_equal; [lia|]. f_equal. lia.
Qed.
Lemma octets3_of a b c : a < 256 -> b < 256 -> c < 256 -> exists v, v < 16777216 /\ [a; b; c] = octets3 v.
Proof.
  intros. exists (a * 65536 + b * 256 + c). split; [lia|]. unfold octets3.
  f_equal; [lia|]. f_equal; [lia|]. f_equal. lia.
Qed.
Lemma octets2_of a b : a < 256 -> b < 256 -> exists v, v < 65536 /\ [a; b] = octets2 v.
Proof.
  intros. exists (a * 256 + b). split; [lia|]. unfold octets2.
  f_equal; [lia|]. f_equal. lia.
Qed.

Lemma read_u24_octets v l : v < 16777216 -> read_u24 (octets3 v ++ l) = (v, l).
Proof.
  intros H. unfold octets3. cbn [app read_u24]. f_equal. rewrite !N.shiftl_mul_pow2.
  assert (A : v / 256 mod 256 < 256) by (apply N.mod_lt; discriminate).
  assert (B : v mod 256 < 256) by (apply N.mod_lt; discriminate).
  replace (N.lor (v / 65536 * 2 ^ 16) (v / 256 mod 256 * 2 ^ 8)) with ((v / 65536 * 256 + v / 256 mod 256) * 2 ^ 8).
  - rewrite lor_mul_pow2 by exact B. change (2 ^ 8) with 256. clear A B. lia.
  - rewrite lor_mul_pow2; [change (2 ^ 16) with 65536; change (2 ^ 8) with 256; lia|].
    change (2 ^ 16) with (256 * 256). change (2 ^ 8) with 256. lia.
Qed.
Lemma land_u31 v : N.land v MASK_U31 = v mod 2147483648.
Proof. unfold MASK_U31. change (2 ^ 31 - 1) with (N.ones 31). rewrite N.land_ones. reflexivity. Qed.
Lemma read_u31_octets v l : v < 4294967296 -> read_u31 (octets4 v ++ l) = (v mod 2147483648, l).
Proof.
  intros H. unfold read_u31. rewrite take_n_app by reflexivity. rewrite be_dec_octets4 by exact H. rewrite land_u31. reflexivity.
Qed.
Lemma ldiff_high v : v < 4294967296 -> N.ldiff v (2 ^ 31) = v mod 2147483648.
Proof.
  intros H. change 2147483648 with (2 ^ 31). rewrite <- N.land_ones. apply N.bits_inj. intros n. rewrite N.ldiff_spec, N.land_spec, N.pow2_bits_eqb.
  destruct (N.ltb_spec n 31) as [L|L].
  - rewrite N.ones_spec_low by exact L. destruct (N.eqb_spec 31 n); [lia|reflexivity].
  - rewrite N.ones_spec_high by exact L. rewrite andb_false_r. destruct (N.eqb_spec 31 n) as [E|E]; [rewrite andb_false_r; reflexivity|].
    replace (N.testbit v n) with false; [reflexivity|]. symmetry. destruct (N.eq_dec v 0) as [->|Z]; [apply N.bits_0|].
    apply N.bits_above_log2. apply N.log2_lt_pow2; [lia|]. eapply N.lt_le_trans; [exact H|].
    change 4294967296 with (2 ^ 32). apply N.pow_le_mono_r; lia.
Qed.

(** ** Types and flags *)
Lemma type_of_kind k : type_means (kind_encode k) k.
Proof.
  destruct k; [left; cbn; auto 20..|]. right. split; [|reflexivity]. intros k' H. cbn in H.
  repeat (destruct H as [H|H]; [discriminate H|]). exact H.
Qed.
Lemma kind_new_means ty : type_means ty (kind_new ty).
Proof.
  destruct (N.ltb_spec ty 10) as [L|L].
  - assert (C : ty = 0 \/ ty = 1 \/ ty = 2 \/ ty = 3 \/ ty = 4 \/ ty = 5 \/ ty = 6 \/ ty = 7 \/ ty = 8 \/ ty = 9) by lia.
    repeat (destruct C as [->|C]; [left; cbn; auto 20|]). subst ty. left; cbn; auto 20.
  - right. split.
    + intros k' H. cbn in H. repeat (destruct H as [H|H]; [injection H as H _; lia|]). exact H.
    + destruct ty as [|p]; [lia|]. destruct p as [p|p|]; try destruct p as [p|p|]; try destruct p as [p|p|]; try destruct p as [p|p|]; try reflexivity; lia.
Qed.
Lemma type_means_fun ty k k' : type_means ty k -> type_means ty k' -> k = k'.
Proof.
  intros [A|[A ->]] [B|[B ->]]; [|destruct (B _ A)|destruct (A _ B)|reflexivity].
  cbn in A, B. repeat (destruct A as [A|A]; [injection A as <- <-; repeat (destruct B as [B|B]; [try discriminate B; injection B as <-; reflexivity|]); destruct B|]).
  destruct A.
Qed.
Lemma kind_new_encode k : kind_new (kind_encode k) = k.
Proof. destruct k; reflexivity. Qed.

Lemma flags_of_lt a b c d : flags_of a b c d < 256.
Proof. destruct a, b, c, d; reflexivity. Qed.
Definition all_flags : list N :=
  flat_map (fun a => flat_map (fun b => flat_map (fun c => map (flags_of a b c) [false; true]) [false; true]) [false; true]) [false; true].
Lemma all_flags_in f : In f all_flags -> defined_flags f.
Proof.
  unfold all_flags. intros H. apply in_flat_map in H as (a & _ & H). apply in_flat_map in H as (b & _ & H).
  apply in_flat_map in H as (c & _ & H). apply in_map_iff in H as (d & <- & _). exists a, b, c, d. reflexivity.
Qed.
Lemma flag_new_sweep f : f < 256 ->
  (match flag_new f with Some g => (g =? f) && existsb (N.eqb f) all_flags | None => negb (existsb (N.eqb f) all_flags) end) = true.
Proof. revert f. apply byte_sweep. vm_compute. reflexivity. Qed.
Lemma defined_in f : defined_flags f -> existsb (N.eqb f) all_flags = true.
Proof. intros (a & b & c & d & ->). destruct a, b, c, d; vm_compute; reflexivity. Qed.
Lemma flag_new_iff f : f < 256 -> (flag_new f = Some f <-> defined_flags f).
Proof.
  intros H. pose proof (flag_new_sweep f H) as S. split.
  - intros E. rewrite E in S. apply andb_true_iff in S as [_ S]. apply existsb_exists in S as (x & I & X). apply N.eqb_eq in X. subst x.
    apply all_flags_in, I.
  - intros D. apply defined_in in D. destruct (flag_new f) as [g|].
    + apply andb_true_iff in S as [S _]. apply N.eqb_eq in S. congruence.
    + rewrite D in S. discriminate.
Qed.
Lemma flag_new_none f : f < 256 -> (flag_new f = None <-> ~ defined_flags f).
Proof.
  intros H. pose proof (flag_new_sweep f H) as S. pose proof (flag_new_iff f H) as I. destruct (flag_new f) as [g|].
  - apply andb_true_iff in S as [S _]. apply N.eqb_eq in S. subst g. split; [discriminate|]. intros D. destruct D. apply I. reflexivity.
  - split; [|reflexivity]. intros _ D. apply I in D. discriminate.
Qed.
Lemma flag_new_some f g : flag_new f = Some g -> g = f.
Proof. unfold flag_new. destruct (_ =? _); congruence. Qed.
(** What the accessors say of a defined flag octet. *)
Lemma flags_of_view a b c d : let f := flags_of a b c d in
  is_end_stream f = a /\ is_ack f = a /\ is_end_headers f = b /\ is_padded f = c /\ is_priority f = d /\
  set_end_headers f = flags_of a true c d /\ set_end_stream f = flags_of true b c d /\ unset_end_stream f = flags_of false b c d.
Proof. destruct a, b, c, d; vm_compute; intuition. Qed.

(** ** Frame headers *)
Lemma fh_encode_octets len k f id : len < 16777216 -> id < 4294967296 ->
  fh_encode (mkFH len k f id) = header_octets len (kind_encode k) f id.
Proof.
  intros L I. unfold fh_encode, header_octets, stream_encode. cbn [fh_length fh_kind fh_flag fh_id].
  rewrite encode_u24_octets, be_enc_4 by assumption. reflexivity.
Qed.
Lemma header_octets_blen len ty f rid : blen (header_octets len ty f rid) = 9.
Proof. reflexivity. Qed.
Lemma fh_parse_octets len ty f rid l : len < 16777216 -> rid < 4294967296 -> f < 256 ->
  fh_parse (header_octets len ty f rid ++ l) =
  match flag_new f with
  | None => Err (EHttp2 (BadFlag f))
  | Some fl => Ok (mkFH len (kind_new ty) fl (rid mod 2147483648), l)
  end.
Proof.
  intros L R F. unfold fh_parse. rewrite blen_app, header_octets_blen.
  destruct (N.ltb_spec (9 + blen l) FRAME_HEADER_BYTES) as [A|_]; [unfold FRAME_HEADER_BYTES in A; lia|].
  unfold header_octets. rewrite <- !app_assoc. rewrite read_u24_octets by exact L. cbn [app]. rewrite get_1. cbn [bind]. rewrite get_1. cbn [bind].
  destruct (flag_new f); [|reflexivity]. unfold stream_parse. rewrite read_u31_octets by exact R. reflexivity.
Qed.
Lemma fh_roundtrip len k f id l : len < 16777216 -> id < 2147483648 -> defined_flags f ->
  fh_parse (fh_encode (mkFH len k f id) ++ l) = Ok (mkFH len k f id, l).
Proof.
  intros L I D. rewrite fh_encode_octets by lia. assert (F : f < 256) by (destruct D as (a & b & c & d & ->); apply flags_of_lt).
  rewrite fh_parse_octets by lia. rewrite (proj2 (flag_new_iff f F) D). rewrite kind_new_encode, N.mod_small by exact I. reflexivity.
Qed.

Lemma header_split l : bytes_ok l -> 9 <= blen l -> exists len ty f rid rest,
  l = header_octets len ty f rid ++ rest /\ len < 16777216 /\ ty < 256 /\ f < 256 /\ rid < 4294967296.
Proof.
  intros B L. unfold blen in L.
  destruct l as [|b0 [|b1 [|b2 [|b3 [|b4 [|b5 [|b6 [|b7 [|b8 rest]]]]]]]]]; try (cbn [length] in L; lia).
  repeat (apply bytes_ok_cons in B as [? B]). unfold byte_ok in *.
  destruct (octets3_of b0 b1 b2) as (len & Hl & El); [assumption..|]. destruct (octets4_of b5 b6 b7 b8) as (rid & Hr & Er); [assumption..|].
  exists len, b3, b4, rid, rest. split; [|auto]. unfold header_octets. rewrite <- El, <- Er. reflexivity.
Qed.
Lemma fh_parse_exact l h rest : bytes_ok l -> (fh_parse l = Ok (h, rest) <->
  exists len ty f r id, l = header_octets len ty f (r * 2147483648 + id) ++ rest /\
    len < 16777216 /\ ty < 256 /\ defined_flags f /\ r <= 1 /\ id < 2147483648 /\
    fh_length h = len /\ type_means ty (fh_kind h) /\ fh_flag h = f /\ fh_id h = id).
Proof.
  intros B. split.
  - intros H. assert (L : 9 <= blen l).
    { unfold fh_parse in H. destruct (N.ltb_spec (blen l) FRAME_HEADER_BYTES) as [A|A]; [discriminate|exact A]. }
    destruct (header_split l B L) as (len & ty & f & rid & rest' & -> & Hl & Ht & Hf & Hr).
    rewrite fh_parse_octets in H by assumption. destruct (flag_new f) as [g|] eqn:E; [|discriminate].
    pose proof (flag_new_some _ _ E). subst g. injection H as <- <-. cbn [fh_length fh_kind fh_flag fh_id].
    exists len, ty, f, (rid / 2147483648), (rid mod 2147483648). apply flag_new_iff in E; [|exact Hf].
    assert (Q : rid / 2147483648 * 2147483648 + rid mod 2147483648 = rid) by lia. rewrite Q.
    split; [reflexivity|]. split; [exact Hl|]. split; [exact Ht|]. split; [exact E|]. split; [lia|]. split; [lia|].
    split; [reflexivity|]. split; [apply kind_new_means|]. split; reflexivity.
  - intros (len & ty & f & r & id & -> & Hl & Ht & D & Hr & Hi & E1 & E2 & E3 & E4).
    assert (F : f < 256) by (destruct D as (a & b & c & d & ->); apply flags_of_lt).
    rewrite fh_parse_octets by lia. rewrite (proj2 (flag_new_iff f F) D). f_equal. f_equal.
    destruct h as [hl hk hf hi]. cbn [fh_length fh_kind fh_flag fh_id] in *. subst. f_equal.
    + eapply type_means_fun; [apply kind_new_means|exact E2].
    + lia.
Qed.
Lemma fh_parse_err l : bytes_ok l -> forall e, fh_parse l = Err e <->
  (blen l < 9 /\ e = EHttp2 Short) \/
  (exists len ty f rid rest, l = header_octets len ty f rid ++ rest /\ len < 16777216 /\ rid < 4294967296 /\ f < 256 /\
     ~ defined_flags f /\ e = EHttp2 (BadFlag f)).
Proof.
  intros B e. split.
  - intros H. destruct (N.ltb_spec (blen l) 9) as [A|A].
    + left. split; [exact A|]. unfold fh_parse in H. unfold FRAME_HEADER_BYTES in H. rewrite (proj2 (N.ltb_lt _ _) A) in H. congruence.
    + right. destruct (header_split l B A) as (len & ty & f & rid & rest & -> & Hl & Ht & Hf & Hr).
      rewrite fh_parse_octets in H by assumption. exists len, ty, f, rid, rest.
      destruct (flag_new f) as [g|] eqn:E; [discriminate|]. apply flag_new_none in E; [|exact Hf]. injection H as <-. auto 10.
  - intros [[A ->]|(len & ty & f & rid & rest & -> & Hl & Hr & Hf & D & ->)].
    + unfold fh_parse. unfold FRAME_HEADER_BYTES. rewrite (proj2 (N.ltb_lt _ _) A). reflexivity.
    + rewrite fh_parse_octets by assumption. rewrite (proj2 (flag_new_none f Hf) D). reflexivity.
Qed.
Lemma fh_parse_total l : fh_parse l <> Panic /\ fh_parse l <> Diverge.
Proof.
  unfold fh_parse. destruct (N.ltb_spec (blen l) FRAME_HEADER_BYTES) as [A|A]; [split; discriminate|].
  unfold FRAME_HEADER_BYTES, blen in A.
  destruct l as [|b0 [|b1 [|b2 [|b3 [|b4 l]]]]]; try (cbn [length] in A; lia).
  cbn [read_u24]. rewrite get_1. cbn [bind]. rewrite get_1. cbn [bind]. destruct (flag_new b4); [|split; discriminate].
  destruct (stream_parse l). split; discriminate.
Qed.
