(** Lemmas on SETTINGS and on base64url. *)
From Coq Require Import Ascii String NArith ZArith Lia Bool List ZifyBool ZifyNat ZifyN.
From Verif Require Import Base P_Base S_Huffman P_Huffman M_Frame S_Frame P_Frame.
Import ListNotations.
Local Open Scope N_scope.
Ltac Zify.zify_post_hook ::= Z.div_mod_to_equations.

Definition over (a b : option N) : option N := match a with Some _ => a | None => b end.
Lemma over_assoc a b c : over a (over b c) = over (over a b) c.
Proof. destruct a; reflexivity. Qed.
Lemma last_of_cons id i v es : last_of id ((i, v) :: es) = over (last_of id es) (if i =? id then Some v else None).
Proof. cbn [last_of]. destruct (last_of id es); reflexivity. Qed.
Lemma last_of_app id es fs : last_of id (es ++ fs) = over (last_of id fs) (last_of id es).
Proof.
  induction es as [|[i v] es IH]; cbn [app]; [destruct (last_of id fs); reflexivity|].
  rewrite !last_of_cons, IH. symmetry. apply over_assoc.
Qed.

Definition entry_legalb (e : N * N) : bool :=
  match fst e with
  | 2 => snd e <=? 1
  | 4 => snd e <=? 2147483647
  | 5 => (16384 <=? snd e) && (snd e <=? 16777215)
  | 8 => snd e <=? 1
  | _ => true
  end.
Lemma id_cases (P : N -> Prop) : P 1 -> P 2 -> P 3 -> P 4 -> P 5 -> P 6 -> P 8 ->
  (forall i, i <> 1 -> i <> 2 -> i <> 3 -> i <> 4 -> i <> 5 -> i <> 6 -> i <> 8 -> P i) -> forall i, P i.
Proof.
  intros ? ? ? ? ? ? ? O i. destruct (N.eqb_spec i 1); [subst; assumption|]. destruct (N.eqb_spec i 2); [subst; assumption|].
  destruct (N.eqb_spec i 3); [subst; assumption|]. destruct (N.eqb_spec i 4); [subst; assumption|].
  destruct (N.eqb_spec i 5); [subst; assumption|]. destruct (N.eqb_spec i 6); [subst; assumption|].
  destruct (N.eqb_spec i 8); [subst; assumption|]. apply O; assumption.
Qed.
Lemma match_other {A} i (a2 a4 a5 a8 d : A) : i <> 2 -> i <> 4 -> i <> 5 -> i <> 8 ->
  match i with 2 => a2 | 4 => a4 | 5 => a5 | 8 => a8 | _ => d end = d.
Proof.
  intros. destruct i as [|p]; [reflexivity|]. destruct p as [p|p|]; try destruct p as [p|p|]; try destruct p as [p|p|]; try destruct p as [p|p|]; try reflexivity; lia.
Qed.
Lemma entry_legalb_ok e : entry_legalb e = true <-> entry_legal e.
Proof.
  destruct e as [i v]. unfold entry_legalb, entry_legal. cbn [fst snd]. revert i. apply id_cases; try lia; try tauto.
  intros. rewrite !match_other by assumption. tauto.
Qed.
Lemma from_id_other i v : i <> 1 -> i <> 2 -> i <> 3 -> i <> 4 -> i <> 5 -> i <> 6 -> i <> 8 -> setting_from_id i v = None.
Proof.
  intros. unfold setting_from_id. destruct i as [|p]; [reflexivity|].
  destruct p as [p|p|]; try destruct p as [p|p|]; try destruct p as [p|p|]; try destruct p as [p|p|]; try reflexivity; lia.
Qed.

(** One setting read. *)
Definition settings_over (es : list (N * N)) (s : settings) : settings :=
  mkSettings (st_flags s) (over (last_of 1 es) (st_header_table_size s)) (over (last_of 2 es) (st_enable_push s))
    (over (last_of 3 es) (st_max_concurrent_streams s)) (over (last_of 4 es) (st_initial_window_size s))
    (over (last_of 5 es) (st_max_frame_size s)) (over (last_of 6 es) (st_max_header_list_size s))
    (over (last_of 8 es) (st_enable_connect_protocol s)).
Lemma settings_over_cons e es s : settings_over (e :: es) s = settings_over es (settings_over [e] s).
Proof.
  destruct e as [i v]. unfold settings_over. cbn [st_flags st_header_table_size st_enable_push st_max_concurrent_streams
    st_initial_window_size st_max_frame_size st_max_header_list_size st_enable_connect_protocol].
  rewrite !last_of_cons, <- !over_assoc. reflexivity.
Qed.
Lemma le1_cases {A} v (a b : A) : match v with 0 | 1 => a | _ => b end = if v <=? 1 then a else b.
Proof. destruct v as [|[p|p|]]; try reflexivity; destruct (N.leb_spec (N.pos (xI p)) 1); destruct (N.leb_spec (N.pos (xO p)) 1); (lia || reflexivity). Qed.
Lemma setting_apply_spec s i v : v < 4294967296 ->
  setting_apply s (setting_from_id i v) =
  if entry_legalb (i, v) then Ok (settings_over [(i, v)] s) else Err (EHttp2 InvalidSettingValue).
Proof.
  intros V. unfold entry_legalb. cbn [fst snd]. revert i.
  apply id_cases; try (destruct s; reflexivity).
  - cbn [setting_from_id setting_apply]. rewrite (le1_cases v). destruct s; reflexivity.
  - cbn [setting_from_id setting_apply]. unfold MAX_INITIAL_WINDOW_SIZE. change (2 ^ 31 - 1) with 2147483647.
    destruct (N.ltb_spec 2147483647 v); destruct (N.leb_spec v 2147483647); (lia || destruct s; reflexivity).
  - cbn [setting_from_id setting_apply]. rewrite (le1_cases v). destruct s; reflexivity.
  - intros i A1 A2 A3 A4 A5 A6 A8. rewrite from_id_other, match_other by assumption. cbn [setting_apply].
    unfold settings_over. cbn [last_of]. apply N.eqb_neq in A1, A2, A3, A4, A5, A6, A8.
    rewrite A1, A2, A3, A4, A5, A6, A8. destruct s; reflexivity.
Qed.
Lemma setting_parse_octets e l : entry_range e -> setting_parse (entry_octets e ++ l) = Ok (setting_from_id (fst e) (snd e), l).
Proof.
  intros [A B]. unfold setting_parse, entry_octets. rewrite <- app_assoc, get_octets2 by exact A. cbn [bind].
  rewrite get_octets4 by exact B. reflexivity.
Qed.
Lemma entry_octets_blen e : blen (entry_octets e) = 6.
Proof. reflexivity. Qed.
Lemma entries_blen es : blen (concat (map entry_octets es)) = 6 * N.of_nat (length es).
Proof.
  induction es as [|e es IH]; [reflexivity|]. cbn [map concat length]. rewrite blen_app, IH, entry_octets_blen. lia.
Qed.
Lemma setting_loop_spec es : Forall entry_range es -> forall s,
  setting_loop (length es) s (concat (map entry_octets es)) =
  if forallb entry_legalb es then Ok (settings_over es s) else Err (EHttp2 InvalidSettingValue).
Proof.
  induction 1 as [|e es R _ IH]; intros s; [destruct s; reflexivity|].
  cbn [length map concat setting_loop forallb]. rewrite setting_parse_octets by exact R. cbn [bind].
  rewrite setting_apply_spec by apply R. rewrite <- surjective_pairing. destruct (entry_legalb e); [|reflexivity]. cbn [bind andb].
  rewrite IH, (settings_over_cons e es). reflexivity.
Qed.
Lemma settings_over_default es : settings_over es settings_default = settings_of es.
Proof.
  unfold settings_over, settings_of. cbn [settings_default st_flags st_header_table_size st_enable_push st_max_concurrent_streams
    st_initial_window_size st_max_frame_size st_max_header_list_size st_enable_connect_protocol].
  assert (O : forall o, over o None = o) by (intros []; reflexivity). rewrite !O. reflexivity.
Qed.
Lemma forallb_legal es : forallb entry_legalb es = true <-> Forall entry_legal es.
Proof.
  rewrite forallb_forall, Forall_forall. split; intros H x I; apply entry_legalb_ok, H, I.
Qed.
Lemma parse_setting_entries es : Forall entry_range es ->
  parse_setting (concat (map entry_octets es)) =
  if forallb entry_legalb es then Ok (settings_of es) else Err (EHttp2 InvalidSettingValue).
Proof.
  intros R. unfold parse_setting. rewrite entries_blen. rewrite (N.mul_comm 6), N.mod_mul by discriminate. cbn [N.eqb negb].
  rewrite N.div_mul by discriminate. rewrite Nnat.Nat2N.id. rewrite setting_loop_spec by exact R. rewrite settings_over_default. reflexivity.
Qed.
(** Every octet string whose length is a multiple of six is a list of entries. *)
Lemma entries_split n : forall l, bytes_ok l -> blen l = 6 * N.of_nat n ->
  exists es, l = concat (map entry_octets es) /\ Forall entry_range es /\ length es = n.
Proof.
  induction n as [|n IH]; intros l B L.
  - exists []. destruct l; [repeat constructor|]. rewrite blen_cons in L. lia.
  - unfold blen in L.
    destruct l as [|a [|b [|c [|d [|e [|f l]]]]]]; try (cbn [length] in L; lia).
    repeat (apply bytes_ok_cons in B as [? B]). unfold byte_ok in *.
    destruct (octets2_of a b) as (i & Hi & Ei); [assumption..|]. destruct (octets4_of c d e f) as (v & Hv & Ev); [assumption..|].
    destruct (IH l B) as (es & -> & R & N); [unfold blen; cbn [length] in L; lia|].
    exists ((i, v) :: es). split; [|split; [constructor; [split; assumption|exact R]|cbn [length]; congruence]].
    cbn [map concat]. change (entry_octets (i, v)) with (octets2 i ++ octets4 v). rewrite <- Ei, <- Ev. reflexivity.
Qed.
Lemma entries_octets_inj es : Forall entry_range es -> forall fs, Forall entry_range fs ->
  concat (map entry_octets es) = concat (map entry_octets fs) -> es = fs.
Proof.
  induction 1 as [|[i v] es R _ IH]; intros [|[j w] fs] F E; try reflexivity; try discriminate E.
  apply Forall_cons_iff in F as [[F1 F2] F]. destruct R as [R1 R2]. cbn [fst snd] in *. cbn [map concat] in E. unfold entry_octets in E at 1 3. cbn [fst snd] in E.
  rewrite <- !app_assoc in E.
  assert (Q : octets2 i = octets2 j) by (apply (f_equal (firstn 2)) in E; exact E).
  assert (Q' : octets4 v = octets4 w) by (apply (f_equal (fun l => firstn 4 (skipn 2 l))) in E; exact E).
  assert (Q2 : concat (map entry_octets es) = concat (map entry_octets fs)) by (apply (f_equal (skipn 6)) in E; exact E).
  f_equal; [|apply IH; assumption]. f_equal.
  - pose proof (be_dec_octets2 i R1). pose proof (be_dec_octets2 j F1). congruence.
  - pose proof (be_dec_octets4 v R2). pose proof (be_dec_octets4 w F2). congruence.
Qed.
Lemma parse_setting_exact l s : bytes_ok l ->
  (parse_setting l = Ok s <->
   exists es, l = concat (map entry_octets es) /\ Forall entry_range es /\ Forall entry_legal es /\ s = settings_of es).
Proof.
  intros B. split.
  - intros H. assert (M : blen l mod 6 = 0).
    { unfold parse_setting in H. destruct (blen l mod 6 =? 0) eqn:E; [apply N.eqb_eq; exact E|discriminate]. }
    destruct (entries_split (N.to_nat (blen l / 6)) l B) as (es & -> & R & _); [clear - M; lia|].
    rewrite parse_setting_entries in H by exact R. exists es. destruct (forallb entry_legalb es) eqn:E; [|discriminate].
    apply forallb_legal in E. injection H as <-. auto.
  - intros (es & -> & R & L & ->). rewrite parse_setting_entries by exact R. apply forallb_legal in L. rewrite L. reflexivity.
Qed.
Lemma parse_setting_err l e : bytes_ok l ->
  (parse_setting l = Err e <->
   (blen l mod 6 <> 0 /\ e = EHttp2 InvalidPayloadLength) \/
   (exists es, l = concat (map entry_octets es) /\ Forall entry_range es /\ ~ Forall entry_legal es /\ e = EHttp2 InvalidSettingValue)).
Proof.
  intros B. destruct (N.eqb_spec (blen l mod 6) 0) as [M|M].
  - destruct (entries_split (N.to_nat (blen l / 6)) l B) as (es & -> & R & _); [clear - M; lia|].
    rewrite parse_setting_entries by exact R. split.
    + intros H. right. exists es. destruct (forallb entry_legalb es) eqn:E; [discriminate|]. injection H as <-.
      split; [reflexivity|]. split; [exact R|]. split; [|reflexivity]. rewrite <- forallb_legal, E. discriminate.
    + intros [[C _]|(fs & E & R' & L & ->)]; [contradiction|]. apply entries_octets_inj in E; [|assumption..]. subst fs.
      rewrite <- forallb_legal in L. destruct (forallb entry_legalb es); [destruct L|]; reflexivity.
  - unfold parse_setting. rewrite (proj2 (N.eqb_neq _ _) M). cbn [negb]. split.
    + intros H. injection H as <-. auto.
    + intros [[_ ->]|(es & -> & _)]; [reflexivity|]. rewrite entries_blen in M. destruct M. rewrite N.mul_comm. apply N.mod_mul. discriminate.
Qed.
Lemma parse_setting_total l : bytes_ok l -> parse_setting l <> Panic /\ parse_setting l <> Diverge.
Proof.
  intros B. destruct (N.eqb_spec (blen l mod 6) 0) as [M|M].
  - destruct (entries_split (N.to_nat (blen l / 6)) l B) as (es & -> & R & _); [clear - M; lia|].
    rewrite parse_setting_entries by exact R. destruct (forallb _ _); split; discriminate.
  - unfold parse_setting. rewrite (proj2 (N.eqb_neq _ _) M). split; discriminate.
Qed.

(** ** The encoder *)
Lemma opt_octets (f : N -> setting) i o : (forall v, setting_encode (f v) = be_enc 2 i ++ be_enc 4 v) -> i < 65536 ->
  Forall entry_range (present i o) -> concat (map setting_encode (opt_list f o)) = concat (map entry_octets (present i o)).
Proof.
  intros E I R. destruct o as [v|]; [|reflexivity]. cbn [opt_list present map concat]. rewrite E. unfold entry_octets. cbn [fst snd].
  apply Forall_cons_iff in R as [[_ R] _]. cbn [snd] in R. rewrite be_enc_2, be_enc_4 by assumption. reflexivity.
Qed.
Lemma settings_payload_octets s : Forall entry_range (entries_of s) ->
  settings_payload s = concat (map entry_octets (entries_of s)).
Proof.
  unfold entries_of. intros R. rewrite !Forall_app in R. destruct R as (R1 & R2 & R3 & R4 & R5 & R6 & R8).
  unfold settings_payload, settings_list, entries_of. rewrite !map_app, !concat_app.
  rewrite (opt_octets _ 1), (opt_octets _ 2), (opt_octets _ 3), (opt_octets _ 4), (opt_octets _ 5), (opt_octets _ 6), (opt_octets _ 8);
    try assumption; try reflexivity.
Qed.
Lemma opt_list_length {A B} (f : A -> B) o : length (opt_list f o) = match o with Some _ => 1%nat | None => 0%nat end.
Proof. destruct o; reflexivity. Qed.
Lemma present_length i o : length (present i o) = match o with Some _ => 1%nat | None => 0%nat end.
Proof. destruct o; reflexivity. Qed.
Lemma settings_payload_len_ok s : settings_payload_len s = 6 * N.of_nat (length (entries_of s)).
Proof.
  unfold settings_payload_len, settings_list, entries_of. rewrite !app_length, !opt_list_length, !present_length. reflexivity.
Qed.
Lemma entries_of_length s : (length (entries_of s) <= 7)%nat.
Proof.
  unfold entries_of. rewrite !app_length, !present_length. destruct s as [? [|] [|] [|] [|] [|] [|] [|]]; cbn; lia.
Qed.
Lemma settings_of_entries s : st_flags s = 0 -> settings_of (entries_of s) = s.
Proof.
  intros F. unfold settings_of, entries_of. rewrite !last_of_app.
  destruct s as [f o1 o2 o3 o4 o5 o6 o8]. cbn in F. subst f.
  destruct o1, o2, o3, o4, o5, o6, o8; reflexivity.
Qed.
Lemma settings_encode_octets s : Forall entry_range (entries_of s) ->
  settings_encode s = frame_octets 4 (st_flags s) 0 (concat (map entry_octets (entries_of s))).
Proof.
  intros R. unfold settings_encode, frame_octets, fh_set_length, fh_new. cbn [fh_kind fh_flag fh_id].
  pose proof (entries_of_length s). rewrite settings_payload_len_ok.
  rewrite fh_encode_octets by lia. rewrite settings_payload_octets by exact R.
  rewrite entries_blen. reflexivity.
Qed.
Lemma parse_setting_payload s : legal_settings s -> parse_setting (settings_payload s) = Ok s.
Proof.
  intros (F & R & L). rewrite settings_payload_octets by exact R. rewrite parse_setting_entries by exact R.
  apply forallb_legal in L. rewrite L, settings_of_entries by exact F. reflexivity.
Qed.

(** ** base64url *)
Lemma three_ind {A} (P : list A -> Prop) : P [] -> (forall a, P [a]) -> (forall a b, P [a; b]) ->
  (forall a b c r, P r -> P (a :: b :: c :: r)) -> forall l, P l.
Proof.
  intros P0 P1 P2 P3. fix F 1. intros [|a [|b [|c r]]]; [exact P0|apply P1|apply P2|apply P3, F].
Qed.
Fixpoint b64_digits (l : bytes) : list N :=
  match l with
  | [] => []
  | [a] => [a / 4; a mod 4 * 16]
  | [a; b] => [a / 4; a mod 4 * 16 + b / 16; b mod 16 * 4]
  | a :: b :: c :: r => a / 4 :: a mod 4 * 16 + b / 16 :: b mod 16 * 4 + c / 64 :: c mod 64 :: b64_digits r
  end.
Lemma b64_encode_digits l : b64_encode l = map b64_char (b64_digits l).
Proof.
  induction l as [|a|a b|a b c r IH] using three_ind; [reflexivity..|]. cbn [b64_encode b64_digits map]. rewrite IH. reflexivity.
Qed.
Lemma digits_lt l : bytes_ok l -> Forall (fun d => d < 64) (b64_digits l).
Proof.
  induction l as [|a|a b|a b c r IH] using three_ind; intros B.
  - constructor.
  - apply bytes_ok_cons in B as [? B]. unfold byte_ok in *. cbn [b64_digits].
    constructor; [lia|]. constructor; [lia|]. constructor.
  - apply bytes_ok_cons in B as [? B]. apply bytes_ok_cons in B as [? B]. unfold byte_ok in *. cbn [b64_digits].
    constructor; [lia|]. constructor; [lia|]. constructor; [lia|]. constructor.
  - apply bytes_ok_cons in B as [? B]. apply bytes_ok_cons in B as [? B]. apply bytes_ok_cons in B as [? B]. cbn [b64_digits].
    specialize (IH B). unfold byte_ok in *. clear B.
    constructor; [lia|]. constructor; [lia|]. constructor; [lia|]. constructor; [lia|exact IH].
Qed.
Lemma bits_6_2 a : num_bits 8 a = num_bits 6 (a / 4) ++ num_bits 2 (a mod 4).
Proof. change 8%nat with (6 + 2)%nat. rewrite num_bits_split. change (2 ^ N.of_nat 2) with 4. change 4 with (2 ^ 2) at 3. rewrite num_bits_mod by (cbn; lia). reflexivity. Qed.
Lemma bits_4_4 a : num_bits 8 a = num_bits 4 (a / 16) ++ num_bits 4 (a mod 16).
Proof. change 8%nat with (4 + 4)%nat. rewrite num_bits_split. change (2 ^ N.of_nat 4) with 16. change 16 with (2 ^ 4) at 3. rewrite num_bits_mod by (cbn; lia). reflexivity. Qed.
Lemma bits_2_6 a : num_bits 8 a = num_bits 2 (a / 64) ++ num_bits 6 (a mod 64).
Proof. change 8%nat with (2 + 6)%nat. rewrite num_bits_split. change (2 ^ N.of_nat 6) with 64. change 64 with (2 ^ 6) at 3. rewrite num_bits_mod by (cbn; lia). reflexivity. Qed.
Lemma bits_24 x y : y < 16 -> num_bits 6 (x * 16 + y) = num_bits 2 x ++ num_bits 4 y.
Proof. intros H. exact (num_bits_app 2 4 x y H). Qed.
Lemma bits_42 x y : y < 4 -> num_bits 6 (x * 4 + y) = num_bits 4 x ++ num_bits 2 y.
Proof. intros H. exact (num_bits_app 4 2 x y H). Qed.
Definition b64_pad (n : nat) : nat := match Nat.modulo n 3 with 1%nat => 4 | 2%nat => 2 | _ => 0 end.
Lemma b64_bits l : bytes_ok l -> exists pad, (pad < 6)%nat /\ flat_map (num_bits 6) (b64_digits l) = text_bits l ++ repeat false pad.
Proof.
  induction l as [|a|a b|a b c r IH] using three_ind; intros B.
  - exists 0%nat. split; [lia|reflexivity].
  - exists 4%nat. split; [lia|]. unfold text_bits. cbn [b64_digits flat_map]. rewrite !app_nil_r.
    replace (a mod 4 * 16) with (a mod 4 * 16 + 0) by lia. rewrite bits_24 by lia. rewrite (bits_6_2 a), <- app_assoc. reflexivity.
  - apply bytes_ok_cons in B as [? B]. apply bytes_ok_cons in B as [? B]. unfold byte_ok in *.
    exists 2%nat. split; [lia|]. unfold text_bits. cbn [b64_digits flat_map]. rewrite !app_nil_r.
    replace (b mod 16 * 4) with (b mod 16 * 4 + 0) by lia. rewrite bits_24, bits_42 by lia.
    rewrite (bits_6_2 a), (bits_4_4 b), <- !app_assoc. reflexivity.
  - apply bytes_ok_cons in B as [? B]. apply bytes_ok_cons in B as [? B]. apply bytes_ok_cons in B as [? B].
    destruct (IH B) as (pad & P & E). unfold byte_ok in *. clear IH B. exists pad. split; [exact P|].
    unfold text_bits in *. cbn [b64_digits flat_map]. rewrite E.
    rewrite bits_24, bits_42 by lia. rewrite (bits_6_2 a), (bits_4_4 b), (bits_2_6 c), <- !app_assoc. reflexivity.
Qed.
Lemma b64_alpha_sweep v : v < 256 ->
  (64 <=? v) || (match nth_error b64_alphabet (N.to_nat v) with Some c => (b64_char v =? c) | None => false end
    && match b64_val (b64_char v) with Some w => w =? v | None => false end) = true.
Proof. revert v. apply byte_sweep. vm_compute. reflexivity. Qed.
Lemma b64_alpha v : v < 64 -> nth_error b64_alphabet (N.to_nat v) = Some (b64_char v) /\ b64_val (b64_char v) = Some v.
Proof.
  intros H. pose proof (b64_alpha_sweep v ltac:(lia)) as S. destruct (N.leb_spec 64 v); [lia|]. cbn [orb] in S.
  apply andb_true_iff in S as [S T]. destruct (nth_error _ _); [|discriminate]. apply N.eqb_eq in S. subst n.
  destruct (b64_val _); [|discriminate]. apply N.eqb_eq in T. subst n. auto.
Qed.
Lemma b64_encode_spec l : bytes_ok l -> base64url l (b64_encode l).
Proof.
  intros B. destruct (b64_bits l B) as (pad & P & E). exists (b64_digits l), pad. pose proof (digits_lt l B) as D.
  split; [|auto]. rewrite b64_encode_digits. clear E B. induction D as [|d ds H D IH]; [constructor|]. constructor; [apply b64_alpha, H|exact IH].
Qed.
Lemma digits_inj ds : Forall (fun d => d < 64) ds -> forall es, Forall (fun d => d < 64) es ->
  flat_map (num_bits 6) ds = flat_map (num_bits 6) es -> ds = es.
Proof.
  induction 1 as [|d ds H _ IH]; intros [|e es] F E; try reflexivity; try discriminate E.
  apply Forall_cons_iff in F as [Fe F]. cbn [flat_map] in E. apply app_inj_length in E as [E1 E2]; [|rewrite !num_bits_length; reflexivity].
  f_equal; [|apply IH; assumption]. eapply (num_bits_inj 6); eassumption.
Qed.
Lemma flat_bits_length ds : length (flat_map (num_bits 6) ds) = (6 * length ds)%nat.
Proof. induction ds; [reflexivity|]. cbn [flat_map]. rewrite app_length, num_bits_length, IHds. cbn [length]. lia. Qed.
Lemma base64url_unique l t : bytes_ok l -> base64url l t -> t = b64_encode l.
Proof.
  intros B (ds & pad & F & D & P & E). destruct (b64_bits l B) as (pad' & P' & E').
  assert (Q : pad = pad').
  { apply (f_equal (@length bool)) in E, E'. rewrite flat_bits_length, app_length, repeat_length in E, E'. lia. }
  subst pad'. rewrite <- E' in E. apply digits_inj in E; [|exact D|apply digits_lt, B]. subst ds.
  rewrite b64_encode_digits. clear E' B P P'. revert D. induction F as [|d c ds t H F IH]; intros D; [reflexivity|].
  apply Forall_cons_iff in D as [D0 D]. cbn [map]. f_equal; [|apply IH, D]. destruct (b64_alpha d D0) as [A _]. congruence.
Qed.
Lemma b64_roundtrip l : bytes_ok l -> b64_decode (b64_encode l) = Some l.
Proof.
  induction l as [|a|a b|a b c r IH] using three_ind; intros B.
  - reflexivity.
  - apply bytes_ok_cons in B as [? B]. unfold byte_ok in *. cbn [b64_encode b64_decode].
    rewrite !(fun v H => proj2 (b64_alpha v H)) by lia.
    destruct (N.eqb_spec (a mod 4 * 16 mod 16) 0); [|lia]. f_equal. f_equal. lia.
  - apply bytes_ok_cons in B as [? B]. apply bytes_ok_cons in B as [? B]. unfold byte_ok in *. cbn [b64_encode b64_decode].
    rewrite !(fun v H => proj2 (b64_alpha v H)) by lia.
    destruct (N.eqb_spec (b mod 16 * 4 mod 4) 0); [|lia]. f_equal. f_equal; [lia|]. f_equal. lia.
  - apply bytes_ok_cons in B as [? B]. apply bytes_ok_cons in B as [? B]. apply bytes_ok_cons in B as [? B].
    specialize (IH B). clear B. unfold byte_ok in *. cbn [b64_encode b64_decode]. rewrite IH.
    rewrite !(fun v H => proj2 (b64_alpha v H)) by lia. f_equal. f_equal; [lia|]. f_equal; [lia|]. f_equal. lia.
Qed.
Lemma settings_payload_ok s : Forall entry_range (entries_of s) -> bytes_ok (settings_payload s).
Proof.
  intros R. rewrite settings_payload_octets by exact R. induction R as [|e es [A B] _ IH]; [apply bytes_ok_nil|].
  cbn [map concat]. apply bytes_ok_app. split; [|exact IH]. unfold entry_octets. apply bytes_ok_app. split; [apply octets2_ok, A|apply octets4_ok, B].
Qed.
Lemma http_settings_roundtrip s : legal_settings s -> parse_http_settings (encode_http_settings s) = Ok s.
Proof.
  intros L. unfold parse_http_settings, encode_http_settings. rewrite b64_roundtrip by apply settings_payload_ok, L.
  apply parse_setting_payload, L.
Qed.
Lemma http_settings_spec s : Forall entry_range (entries_of s) ->
  base64url (concat (map entry_octets (entries_of s))) (encode_http_settings s).
Proof.
  intros R. unfold encode_http_settings. rewrite <- settings_payload_octets by exact R. apply b64_encode_spec, settings_payload_ok, R.
Qed.
Lemma http_settings_parse_text es t : Forall entry_range es -> base64url (concat (map entry_octets es)) t ->
  parse_http_settings t = if forallb entry_legalb es then Ok (settings_of es) else Err (EHttp2 InvalidSettingValue).
Proof.
  intros R H. assert (B : bytes_ok (concat (map entry_octets es))).
  { clear H. induction R as [|e es [A B] _ IH]; [apply bytes_ok_nil|].
    cbn [map concat]. apply bytes_ok_app. split; [|exact IH]. unfold entry_octets. apply bytes_ok_app. split; [apply octets2_ok, A|apply octets4_ok, B]. }
  apply base64url_unique in H; [|exact B]. subst t. unfold parse_http_settings. rewrite b64_roundtrip by exact B.
  apply parse_setting_entries, R.
Qed.
