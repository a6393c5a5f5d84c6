(** C127: header blocks of HTTP/2 that are received and sent on. *)
From Coq Require Import Ascii String NArith ZArith Lia Bool List ZifyBool ZifyNat ZifyN.
From Verif Require Import Base P_Base S_Utf8 M_Hpack S_Huffman P_Huffman S_Hpack S_HpackApi P_Hpack P_HpackTable P_HpackCodec P_HpackSync S_Near S_WriteAll P_WriteAll S_RfcFrames P_RfcFrames S_RfcSecret P_RfcSecret.
Import ListNotations.
Local Open Scope N_scope.

(** The fields of a block that is received, encoded for another connection, are the same fields, with names in lower case, to every reader of
    RFC 7541 exactly if each of them is fine when it is sent: its name is not "accept-", and the entry that the search of the table finds
    for it has its name; and then the table of that reader is the one of the encoder. *)
Theorem C127_list : forall max dyn b ms dyn' max2 dyn2, marked max dyn b ms dyn' -> decode_headers (table_of max dyn) b = (table_of max dyn', Ok (map fst ms)) ->
  Forall sendable (map fst ms) -> table_typed max2 dyn2 ->
  exists t b2, encode_headers (table_of max2 dyn2) (map fst ms) = Ok (t, b2) /\
    forall peer', (exists ms', marked max2 (map lower_field dyn2) b2 ms' peer' /\ map fst ms' = map lower_field (map fst ms)) <->
      fields_sent_fine max2 dyn2 (map fst ms) /\ peer' = map lower_field (hi_to_vec t).
Proof. intros max dyn b ms dyn' max2 dyn2 _ _ S T. destruct (list_on max2 dyn2 (map fst ms) T S) as (t & b2 & E & A & _). eauto. Qed.
Print Assumptions C127_list.
(** For names that HTTP/2 allows that is: no field is called "accept-". *)
Theorem C127_names : forall max dyn b ms dyn' max2 dyn2, marked max dyn b ms dyn' -> decode_headers (table_of max dyn) b = (table_of max dyn', Ok (map fst ms)) ->
  Forall sendable (map fst ms) -> table_typed max2 dyn2 -> Forall (fun f => Forall h2_char (fst f)) (dyn2 ++ map fst ms) ->
  exists t b2, encode_headers (table_of max2 dyn2) (map fst ms) = Ok (t, b2) /\
    ((exists ms' peer', marked max2 dyn2 b2 ms' peer' /\ map fst ms' = map fst ms) <-> forall f, In f (map fst ms) -> fst f <> str "accept-").
Proof. intros max dyn b ms dyn' max2 dyn2 _ _ S T H. exact (names_on max2 dyn2 (map fst ms) T S H). Qed.
Print Assumptions C127_names.
(** But the fields that the sender marked, so that no table ever holds them, are marked again exactly if there are none. *)
Theorem C127_marks : forall max dyn b ms dyn' max2 dyn2, marked max dyn b ms dyn' -> decode_headers (table_of max dyn) b = (table_of max dyn', Ok (map fst ms)) ->
  Forall sendable (map fst ms) -> table_typed max2 dyn2 ->
  exists t b2, encode_headers (table_of max2 dyn2) (map fst ms) = Ok (t, b2) /\
    ((exists ms' peer', marked max2 (map lower_field dyn2) b2 ms' peer' /\ map fst ms' = map lower_field (map fst ms) /\ marks_kept ms ms') <->
     fields_sent_fine max2 dyn2 (map fst ms) /\ Forall (fun m => snd m = false) ms).
Proof. intros max dyn b ms dyn' max2 dyn2 _ _ S T. exact (kept_on max2 dyn2 ms T S). Qed.
Print Assumptions C127_marks.
(** The encoder marks nothing, whatever fields it is given and however its octets are read. *)
Theorem C127_unmarked : forall max dyn fs t b, table_typed max dyn -> Forall sendable fs -> encode_headers (table_of max dyn) fs = Ok (t, b) ->
  forall max' peer ms peer', marked max' peer b ms peer' -> Forall (fun m => snd m = false) ms.
Proof. intros max dyn fs t b T S E. destruct (list_on max dyn fs T S) as (t' & b' & E' & _ & B). rewrite E in E'. injection E' as <- <-. exact B. Qed.
Print Assumptions C127_unmarked.

(** Credentials that the sender marked are received, and, sent on, put into the tables of the encoder and of the next hop. *)
Theorem C127_secret_refuted : forall v max2 dyn2, bytes_ok v -> v <> [] -> blen v < 2 ^ 26 -> 45 + blen v <= max2 -> table_typed max2 dyn2 ->
  let f := (str "authorization", v) in
  exists b t b2 rest, marked 4096 [] b [(f, true)] [] /\ decode_headers hi_new b = (hi_new, Ok [f]) /\
    encode_headers (table_of max2 dyn2) [f] = Ok (t, b2) /\ hi_to_vec t = f :: rest /\
    rfc_block max2 (map lower_field dyn2) b2 [f] (f :: map lower_field rest).
Proof.
  intros v max2 dyn2 V NE L F T f.
  destruct (encode_string_repr v V L) as (lv & _ & R).
  assert (FR : field_repr rfc_lookup (fun i => i < 127 /\ i <> 15) (fun i => i <> 15) 4096 [] ([31; 8] ++ lv) f []).
  { eapply (f_lit_indexed _ _ _ _ _ 16 23 [31; 8] (str "authorization", []) v lv); [auto|lia| |cbn; lia|reflexivity|exact R].
    apply (int_long 4 16 [8] 8). constructor. lia. }
  assert (FR' : field_repr rfc_lookup (fun _ => True) (fun _ => True) 4096 [] ([31; 8] ++ lv) f []).
  { eapply (f_lit_indexed _ _ _ _ _ 16 23 [31; 8] (str "authorization", []) v lv); [auto|exact I| |cbn; lia|reflexivity|exact R].
    apply (int_long 4 16 [8] 8). constructor. lia. }
  assert (S : Forall sendable [f]).
  { constructor; [|constructor]. split; [|split; [exact V|split; [reflexivity|exact L]]]. cbn [fst f].
    apply Forall_forall. intros x X. assert (A : forallb (fun b => b <? 128) (str "authorization") = true) by reflexivity. rewrite forallb_forall in A. specialize (A x X). lia. }
  destruct (encode_runs max2 dyn2 [f] T S) as (d & b2 & E & W).
  inversion W as [|? ? ? l d1 ls d2 W1 W2]; subst. inversion W2; subst.
  assert (SA : static_at 23 (lower_name (fst f)) []) by (split; [lia|reflexivity]).
  assert (D : d = rfc_add max2 dyn2 f).
  { assert (U : forall i w, static_at i (lower_name (fst f)) w -> w = []).
    { intros i w H. pose proof (static_at_small _ _ _ H) as Z. destruct H as [_ H]. change (lower_name (fst f)) with (str "authorization") in H.
      assert (A : forallb (fun k => match nth_error code_static k with Some (n, w) => negb (beq n (str "authorization")) || beq w [] | None => true end) (seq 0 61) = true) by (vm_compute; reflexivity).
      rewrite forallb_forall in A. specialize (A (N.to_nat (i - 1))). rewrite H in A. assert (X : In (N.to_nat (i - 1)) (seq 0 61)) by (apply in_seq; lia). specialize (A X).
      rewrite (proj2 (beq_eq _ _) eq_refl) in A. cbn [negb orb] in A. apply beq_eq. exact A. }
    inversion W1 as [i H|i lv' _ H _|i w ln lv' _ _ H _ _|j e l' H _ _ _ _|ln lv' H _ _ _]; subst; try reflexivity.
    - exfalso. apply NE. exact (U _ _ H).
    - exfalso. exact (H _ _ SA). }
  assert (NW : d = f :: newest (max2 - size_of f) dyn2).
  { rewrite D. unfold rfc_add. cbn [newest]. replace (size_of f <=? max2) with true; [reflexivity|]. symmetry. apply N.leb_le. unfold size_of. cbn [fst snd f]. change (blen (str "authorization")) with 13. lia. }
  exists (([31; 8] ++ lv) ++ []), (table_of max2 d), (l ++ []), (newest (max2 - size_of f) dyn2).
  split; [change true with (never ([31; 8] ++ lv)); econstructor; [exact FR'|constructor]|].
  split. { change hi_new with (idx_of 4096 []). apply (decode_rfc_block 4096 [] _ [f] []); [vm_compute; discriminate|]. econstructor; [exact FR|constructor]. }
  split; [exact E|]. split; [exact NW|].
  change [f] with (map lower_field [f]) at 1. apply (block_meant max2 dyn2 [f] (l ++ []) d); [econstructor; [exact W1|constructor]|exact S|]. split.
  - econstructor; [|exact W1|constructor]. split; [discriminate|]. intros j e H. exfalso. exact (H _ _ SA).
  - rewrite NW. reflexivity.
Qed.
Print Assumptions C127_secret_refuted.

(** A request with marked credentials, and its fields sent on. *)
Definition secret_block : bytes := [130; 31; 8; 2; 97; 98].
Definition secret_fields : list (hfield * bool) := [((str ":method", str "GET"), false); ((str "authorization", str "ab"), true)].
Lemma secret_marked : marked 4096 [] secret_block secret_fields [].
Proof.
  change secret_block with ([130] ++ ([31; 8; 2; 97; 98] ++ [])). unfold secret_fields. change false with (never [130]). change true with (never [31; 8; 2; 97; 98]).
  econstructor; [apply (f_indexed _ _ _ _ _ 2); [exact I|apply (int_short 7 128 2); reflexivity|reflexivity]|]. econstructor; [|constructor].
  change [31; 8; 2; 97; 98] with ([31; 8] ++ ([2] ++ [97; 98])). eapply (f_lit_indexed _ _ _ _ _ 16 23 [31; 8] (str "authorization", []) (str "ab")); [auto|exact I| |cbn; lia|reflexivity|].
  - apply (int_long 4 16 [8] 8). constructor. lia.
  - change (str "ab") with [97; 98]. apply str_raw; [apply (int_short 7 0 2); reflexivity|cbn; lia|]. repeat constructor.
Qed.
Example C127_met : marked 4096 [] secret_block secret_fields [] /\ decode_headers (table_of 4096 []) secret_block = (table_of 4096 [], Ok (map fst secret_fields)) /\
  Forall sendable (map fst secret_fields) /\ table_typed 4096 [] /\ Forall (fun m => snd m = false) (firstn 1 secret_fields) /\
  exists t, encode_headers (table_of 4096 []) (map fst secret_fields) = Ok (t, [130; 87; 130; 28; 127]) /\ hi_to_vec t = [(str "authorization", str "ab")].
Proof.
  split; [exact secret_marked|]. split; [vm_compute; reflexivity|]. split; [apply sendableb_ok; vm_compute; reflexivity|]. split; [split; [vm_compute; discriminate|constructor]|].
  split; [repeat constructor|]. eexists. split; vm_compute; reflexivity.
Qed.
