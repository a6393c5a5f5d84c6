(** Lemmas for C94 and C95. *)
From Coq Require Import Ascii String NArith ZArith Lia Bool List ZifyBool ZifyNat ZifyN.
From Verif Require Import Base S_Utf8 P_Base M_Std M_Helper M_Url M_Http1 S_Http1 S_Http1Api S_Hex S_Url P_Msg P_H2 S_Build S_Exact P_UrlExact M_Text S_Text.
Import ListNotations.
Local Open Scope N_scope.

(** ** Octet classes, decided by going through the 256 octets *)
Definition octets : list N := map N.of_nat (seq 0 256).
Lemma in_octets b : byte_ok b -> In b octets.
Proof.
  unfold byte_ok, octets. intros H. apply in_map_iff. exists (N.to_nat b). split; [lia|].
  apply in_seq. lia.
Qed.
Definition class_eqb (f g : N -> bool) : bool := forallb (fun b => Bool.eqb (f b) (g b)) octets.
Lemma class_eqb_ok f g : class_eqb f g = true -> forall b, byte_ok b -> f b = g b.
Proof.
  unfold class_eqb. rewrite forallb_forall. intros H b Hb. apply Bool.eqb_prop. apply H. apply in_octets, Hb.
Qed.
Lemma recognises_of f g p : class_eqb f g = true -> (forall b, g b = true <-> p b) -> recognises f p.
Proof. intros H E b Hb. rewrite (class_eqb_ok f g H b Hb). apply E. Qed.

Definition memb (l : bytes) (b : N) : bool := existsb (N.eqb b) l.
Lemma memb_ok l b : memb l b = true <-> In b l.
Proof.
  unfold memb. rewrite existsb_exists. split.
  - intros (x & H & E). apply N.eqb_eq in E. subst x. exact H.
  - intros H. exists b. split; [exact H | apply N.eqb_refl].
Qed.
Definition between_b (lo hi b : N) : bool := (lo <=? b) && (b <=? hi).
Definition alpha_b (b : N) : bool := between_b 65 90 b || between_b 97 122 b.
Definition digit_b (b : N) : bool := between_b 48 57 b.
Lemma between_b_ok lo hi b : between_b lo hi b = true <-> lo <= b <= hi.
Proof. unfold between_b. lia. Qed.
Lemma alpha_b_ok b : alpha_b b = true <-> alpha b.
Proof. unfold alpha_b, alpha, upper, lower. rewrite orb_true_iff, !between_b_ok. tauto. Qed.
Lemma digit_b_ok b : digit_b b = true <-> digit b.
Proof. unfold digit_b, digit. apply between_b_ok. Qed.
Definition word_b (l : bytes) (b : N) : bool := alpha_b b || digit_b b || memb l b.
Lemma word_b_ok l b : word_b l b = true <-> alpha b \/ digit b \/ In b l.
Proof. unfold word_b. rewrite !orb_true_iff, alpha_b_ok, digit_b_ok, memb_ok. tauto. Qed.

Lemma alpha_class : recognises is_alpha alpha.
Proof. apply recognises_of with (g := alpha_b); [vm_compute; reflexivity | apply alpha_b_ok]. Qed.
Lemma digit_class : recognises is_digit digit.
Proof. apply recognises_of with (g := digit_b); [vm_compute; reflexivity | apply digit_b_ok]. Qed.
Lemma token_class : recognises is_token vchar.
Proof. apply recognises_of with (g := between_b 33 126); [vm_compute; reflexivity | apply between_b_ok]. Qed.
Lemma status_class : recognises is_status_token printable.
Proof. apply recognises_of with (g := between_b 32 126); [vm_compute; reflexivity | apply between_b_ok]. Qed.
Lemma name_class : recognises is_header_name_token tchar.
Proof.
  apply recognises_of with (g := word_b (str "!#$%&'*+-.^_`|~")); [vm_compute; reflexivity | apply word_b_ok].
Qed.
Lemma value_class : recognises is_header_value_token (fun b => b <> CR).
Proof.
  apply recognises_of with (g := fun b => negb (b =? CR)); [vm_compute; reflexivity|].
  intros b. rewrite negb_true_iff, N.eqb_neq. tauto.
Qed.
Lemma scheme_class : recognises is_scheme_token scheme_char.
Proof. apply recognises_of with (g := word_b (str "+-.")); [vm_compute; reflexivity | apply word_b_ok]. Qed.
Lemma plain_class : recognises is_not_uritrans safe_char.
Proof.
  apply recognises_of with (g := word_b (str "-._/:?=&@")); [vm_compute; reflexivity | apply word_b_ok].
Qed.
Lemma uri_class : recognises is_uri_token (fun b => vchar b /\ b <> 60 /\ b <> 62).
Proof.
  apply recognises_of with (g := fun b => between_b 33 126 b && negb (b =? 60) && negb (b =? 62));
    [vm_compute; reflexivity|].
  intros b. rewrite !andb_true_iff, between_b_ok, !negb_true_iff, !N.eqb_neq. unfold vchar. tauto.
Qed.

(** ** Hexadecimal digits *)
Definition hexv_b (b d : N) : bool :=
  match nth_error (str "0123456789abcdef") (N.to_nat d) with Some x => x =? b | None => false end ||
  match nth_error (str "0123456789ABCDEF") (N.to_nat d) with Some x => x =? b | None => false end.
Lemma hexv_b_ok b d : hexv_b b d = true <-> hexv b d.
Proof.
  assert (E : forall o : option N, match o with Some x => x =? b | None => false end = true <-> o = Some b).
  { intros [x|]; split; intros H; try discriminate.
    - apply N.eqb_eq in H. congruence.
    - injection H as ->. apply N.eqb_refl. }
  unfold hexv_b, hexv. rewrite orb_true_iff, !E. tauto.
Qed.
Lemma hexv_small b d : hexv b d -> d < 16.
Proof.
  intros [H|H]; apply nth_error_Some_lt in H || (assert (L : nth_error _ _ <> None) by (rewrite H; discriminate);
    apply nth_error_Some in L; cbn in L; lia).
Qed.
Lemma convert_hex_class b d : byte_ok b -> (convert_hex b = Some d <-> hexv b d).
Proof.
  intros Hb.
  assert (T : forallb (fun b => forallb (fun d =>
    Bool.eqb (match convert_hex b with Some v => v =? d | None => false end) (hexv_b b d)) (map N.of_nat (seq 0 16))
    && match convert_hex b with Some v => v <? 16 | None => true end) octets = true)
    by (vm_compute; reflexivity).
  rewrite forallb_forall in T. specialize (T b (in_octets b Hb)). apply andb_true_iff in T. destruct T as [T S].
  rewrite forallb_forall in T. rewrite <- hexv_b_ok.
  assert (K : d < 16 -> In d (map N.of_nat (seq 0 16))).
  { intros L. apply in_map_iff. exists (N.to_nat d). split; [lia|]. apply in_seq. lia. }
  split.
  - intros E. rewrite E in *.
    assert (L : d < 16) by (apply N.ltb_lt; exact S).
    specialize (T d (K L)). rewrite N.eqb_refl in T. apply Bool.eqb_prop in T. symmetry. exact T.
  - intros E. assert (L : d < 16) by (apply hexv_b_ok, hexv_small in E; exact E).
    specialize (T d (K L)). rewrite E in T. apply Bool.eqb_prop in T.
    destruct (convert_hex b) as [v|]; [|discriminate]. apply N.eqb_eq in T. congruence.
Qed.
Lemma hex_class : recognises is_hex hex_byte.
Proof.
  intros b Hb.
  assert (E : is_hex b = match convert_hex b with Some _ => true | None => false end).
  { apply (class_eqb_ok is_hex (fun b => match convert_hex b with Some _ => true | None => false end));
      [vm_compute; reflexivity | exact Hb]. }
  rewrite E. split.
  - destruct (convert_hex b) as [d|] eqn:C; [|discriminate]. intros _. exists d. apply convert_hex_class; assumption.
  - intros (d & H). apply convert_hex_class in H; [|exact Hb]. rewrite H. reflexivity.
Qed.
Lemma to_hex_exact d h : to_hex_res d = Ok h <-> upper_hex h d.
Proof.
  unfold to_hex_res, upper_hex, HEX_MAP. destruct (nth_error _ _) as [x|]; split; intros H; try discriminate; congruence.
Qed.
Lemma to_hex_panics d : to_hex_res d = Panic <-> 16 <= d.
Proof.
  unfold to_hex_res. destruct (nth_error HEX_MAP (N.to_nat d)) as [x|] eqn:E; split; intros H; try discriminate.
  - assert (L : nth_error HEX_MAP (N.to_nat d) <> None) by (rewrite E; discriminate).
    apply nth_error_Some in L. cbn in L. lia.
  - apply nth_error_None in E. cbn in E. lia.
  - reflexivity.
Qed.
Lemma hex_inverse d h : to_hex_res d = Ok h -> convert_hex h = Some d.
Proof.
  rewrite to_hex_exact. intros H. unfold upper_hex in H.
  apply convert_hex_class; [|right; exact H].
  apply nth_error_In in H. revert h H. apply Forall_forall. repeat constructor.
Qed.

(** ** Upper case *)
Lemma str_one c : c < 256 -> str (String (ascii_of_N c) EmptyString) = [c].
Proof. intros H. unfold str. cbn. rewrite N_ascii_embedding by exact H. reflexivity. Qed.
Lemma char_upper_foreign other c : stays_foreign other -> 128 <= c ->
  (exists d, In d (char_upper other c) /\ 128 <= d) \/ (exists s, stands_for c s /\ char_upper other c = str s).
Proof.
  intros F Hc. unfold char_upper. replace (c <? 128) with false by lia.
  repeat match goal with |- context [if c =? ?k then _ else _] =>
    destruct (N.eqb_spec c k) as [->|_]; [right; eexists; split; [constructor | reflexivity]|] end.
  left. apply F, Hc.
Qed.
Lemma char_upper_ascii other c : c < 128 -> exists s, stands_for c s /\ char_upper other c = str s.
Proof.
  intros Hc. unfold char_upper. replace (c <? 128) with true by lia. unfold ascii_upper.
  destruct ((97 <=? c) && (c <=? 122)) eqn:E.
  - exists (String (ascii_of_N (c - 32)) EmptyString). split; [constructor; unfold lower; lia|].
    rewrite str_one by lia. reflexivity.
  - exists (String (ascii_of_N c) EmptyString). split; [constructor; [exact Hc | unfold lower; lia]|].
    rewrite str_one by lia. reflexivity.
Qed.
Lemma stands_for_upper other c s : stands_for c s -> char_upper other c = str s.
Proof.
  intros H. destruct H; try reflexivity.
  - rewrite str_one by lia. unfold char_upper, ascii_upper, lower in *.
    replace (c <? 128) with true by lia. replace ((97 <=? c) && (c <=? 122)) with false by lia. reflexivity.
  - unfold lower in *. rewrite str_one by lia. unfold char_upper, ascii_upper.
    replace (c <? 128) with true by lia. replace ((97 <=? c) && (c <=? 122)) with true by lia. reflexivity.
Qed.
Lemma spells_upper other cs w : spells cs w -> str_upper other cs = w.
Proof.
  induction 1 as [|c s cs w H _ IH]; [reflexivity|].
  unfold str_upper in *. cbn [flat_map]. rewrite (stands_for_upper other c s H), IH. reflexivity.
Qed.
Lemma upper_spells other cs : stays_foreign other ->
  Forall (fun d => d < 128) (str_upper other cs) -> spells cs (str_upper other cs).
Proof.
  intros F. induction cs as [|c cs IH]; [constructor|].
  unfold str_upper in *. cbn [flat_map]. rewrite Forall_app. intros [H1 H2].
  assert (K : exists s, stands_for c s /\ char_upper other c = str s).
  { destruct (N.ltb_spec c 128) as [L|L]; [apply char_upper_ascii, L|].
    destruct (char_upper_foreign other c F L) as [(d & Hd & G)|K]; [|exact K].
    rewrite Forall_forall in H1. specialize (H1 d Hd). cbn in H1. lia. }
  destruct K as (s & S & E). rewrite E. constructor; [exact S | apply IH, H2].
Qed.
Lemma utf8_ascii w : Forall (fun d => d < 128) w -> utf8_text w = w.
Proof.
  induction 1 as [|d w H _ IH]; [reflexivity|]. unfold utf8_text in *. cbn [flat_map]. rewrite IH.
  unfold utf8_enc. replace (d <? 128) with true by lia. reflexivity.
Qed.
Lemma utf8_ascii_inv cs w : utf8_text cs = w -> Forall (fun d => d < 128) w -> cs = w.
Proof.
  intros <-. induction cs as [|c cs IH]; [reflexivity|]. unfold utf8_text in *. cbn [flat_map].
  rewrite Forall_app. intros [H1 H2].
  assert (L : c < 128).
  { unfold utf8_enc in H1. destruct (N.ltb_spec c 128) as [L|L]; [exact L|].
    repeat (destruct (_ <? _) in H1); apply Forall_inv in H1; cbn in H1; lia. }
  unfold utf8_enc at 1. replace (c <? 128) with true by lia. cbn [app]. f_equal. apply IH, H2.
Qed.
Lemma method_name_ascii m s : In (m, s) method_names -> Forall (fun d => d < 128) (str s).
Proof.
  intros H. cbn in H.
  repeat (destruct H as [H|H]; [injection H as <- <-; vm_compute; repeat constructor|]). contradiction.
Qed.
Lemma any_case_spells cs w : Forall (fun d => d < 128 /\ ~ lower d) w -> (any_case cs w -> spells cs w).
Proof.
  intros F H. revert F. induction H as [|c b cs w E H IH]; intros F; [constructor|].
  apply Forall_cons_iff in F as [[L N] F].
  destruct E as [->|[Lc E]].
  - rewrite <- (app_nil_l w), app_comm_cons. change (b :: []) with [b] at 1.
    rewrite <- (str_one b) by lia. constructor; [constructor; assumption | apply IH, F].
  - assert (Eb : b = c - 32) by lia. change (b :: w) with ([b] ++ w). rewrite Eb.
    unfold lower in Lc. rewrite <- (str_one (c - 32)) by lia. constructor; [constructor; exact Lc | apply IH, F].
Qed.
Lemma spells_ascii cs w : Forall (fun c => c < 128) cs -> spells cs w -> any_case cs w.
Proof.
  intros F H. revert F. induction H as [|c s cs w S H IH]; intros F; [constructor|].
  apply Forall_cons_iff in F as [L F].
  destruct S; try (exfalso; lia).
  - rewrite str_one by lia. cbn [app]. constructor; [left; reflexivity | apply IH, F].
  - unfold lower in *. rewrite str_one by lia. cbn [app].
    constructor; [right; unfold lower; lia | apply IH, F].
Qed.
Lemma spells_not_small cs w : spells cs w -> Forall (fun d => d < 128 /\ ~ lower d) w.
Proof.
  induction 1 as [|c s cs w S H IH]; [constructor|]. apply Forall_app. split; [|exact IH].
  destruct S; try (vm_compute; repeat constructor; lia || (intros [? ?]; discriminate || lia)).
  - rewrite str_one by lia. repeat constructor; assumption.
  - unfold lower in *. rewrite str_one by lia. repeat constructor; lia.
Qed.

Lemma method_parse other : stays_foreign other -> forall cs m,
  method_from_text other cs = Ok m <-> exists s, In (m, s) method_names /\ spells cs (str s).
Proof.
  intros F cs m. unfold method_from_text. rewrite method_try_from. split.
  - intros (s & H & E). exists s. split; [exact H|].
    pose proof (method_name_ascii m s H) as A. apply utf8_ascii_inv in E; [|exact A].
    rewrite <- E. apply upper_spells; [exact F|]. rewrite E. exact A.
  - intros (s & H & S). exists s. split; [exact H|].
    rewrite (spells_upper other cs _ S). apply utf8_ascii, (method_name_ascii m), H.
Qed.
Lemma method_parse_err other : stays_foreign other -> forall cs,
  (forall m s, In (m, s) method_names -> ~ spells cs (str s)) -> method_from_text other cs = Err (EHttp MethodErr).
Proof.
  intros F cs H. apply method_try_from_err. intros m s I E. apply (H m s I).
  pose proof (method_name_ascii m s I) as A. apply utf8_ascii_inv in E; [|exact A].
  rewrite <- E. apply upper_spells; [exact F|]. rewrite E. exact A.
Qed.
Lemma method_name_capital m s : In (m, s) method_names -> Forall (fun d => d < 128 /\ ~ lower d) (str s).
Proof.
  intros H. cbn in H. unfold lower.
  repeat (destruct H as [H|H]; [injection H as <- <-; vm_compute; repeat constructor; intros [A B]; apply A; reflexivity|]).
  contradiction.
Qed.
Lemma method_parse_ascii other : stays_foreign other -> forall cs, Forall (fun c => c < 128) cs -> forall m,
  method_from_text other cs = Ok m <-> exists s, In (m, s) method_names /\ any_case cs (str s).
Proof.
  intros F cs A m. rewrite (method_parse other F). split; intros (s & H & K); exists s; (split; [exact H|]).
  - apply spells_ascii; assumption.
  - apply any_case_spells; [|exact K]. apply (method_name_capital m), H.
Qed.

Lemma scheme_name_small s k : In (s, k) scheme_names -> exists b w, str k = b :: w /\ lower b /\ Forall (fun d => d < 128) (str k).
Proof.
  intros H. cbn in H.
  repeat (destruct H as [H|H]; [injection H as <- <-; eexists; eexists; split; [reflexivity|];
    split; [unfold lower; split; vm_compute; discriminate | vm_compute; repeat constructor]|]). contradiction.
Qed.
Lemma scheme_text_ext v : (forall s k, In (s, k) scheme_names -> v <> str k) -> blen v <= 64 -> scheme_of_str v = Ok (ScExt v).
Proof.
  intros H L. unfold scheme_of_str. replace (64 <? blen v) with false by lia.
  repeat match goal with |- context [if beq v ?k then _ else _] =>
    let E := fresh in destruct (beq v k) eqn:E;
    [exfalso; apply beq_eq in E; (eapply H; [|exact E]); cbn; tauto|] end.
  reflexivity.
Qed.
Lemma scheme_parse other : stays_foreign other -> forall cs,
  scheme_from_text other cs =
    (if blen (utf8_text (str_upper other cs)) <=? 64 then Ok (ScExt (utf8_text (str_upper other cs)))
     else Err (EUrl UrlInvalid)).
Proof.
  intros F cs. unfold scheme_from_text. set (v := utf8_text (str_upper other cs)).
  destruct (N.leb_spec (blen v) 64) as [L|L].
  - apply scheme_text_ext; [|exact L]. intros s k I E.
    destruct (scheme_name_small s k I) as (b & w & Ek & Lb & A).
    unfold v in E. apply utf8_ascii_inv in E; [|exact A].
    pose proof (upper_spells other cs F) as S. rewrite E in S. specialize (S A). apply spells_not_small in S.
    rewrite Ek in S. apply Forall_inv in S. apply S, Lb.
  - unfold scheme_of_str. replace (64 <? blen v) with true by lia. reflexivity.
Qed.
Lemma upper_small_word w : Forall (fun c => c < 128) w -> forall other, utf8_text (str_upper other w) = map ascii_upper w.
Proof.
  intros A other. assert (E : str_upper other w = map ascii_upper w).
  { induction A as [|c w L A IH]; [reflexivity|]. unfold str_upper in *. cbn [flat_map map]. rewrite IH.
    unfold char_upper. replace (c <? 128) with true by lia. reflexivity. }
  rewrite E. apply utf8_ascii. apply Forall_forall. intros d H. apply in_map_iff in H as (c & <- & H).
  rewrite Forall_forall in A. specialize (A c H). cbn in A. unfold ascii_upper. destruct (_ && _); lia.
Qed.
Lemma scheme_round s : scheme_of_str (scheme_str s) = Ok s <->
  s <> ScNone /\ forall t, s = ScExt t -> blen t <= 64 /\ forall s' k, In (s', k) scheme_names -> t <> str k.
Proof.
  destruct s as [| | | | | |t]; try (split; [intros _; split; [discriminate | intros t E; discriminate E] | intros _; reflexivity]).
  - split; [intros E; vm_compute in E; discriminate E | intros [E _]; exfalso; apply E; reflexivity].
  - cbn [scheme_str]. split.
    + intros E. split; [discriminate|]. intros t' Et. injection Et as <-.
      assert (L : blen t <= 64) by (apply scheme_of_str_ok; eauto). split; [exact L|].
      intros s' k I ->. cbn in I.
      repeat (destruct I as [I|I]; [injection I as <- <-; vm_compute in E; discriminate E|]). contradiction.
    + intros [_ H]. destruct (H t eq_refl) as [L K]. apply scheme_text_ext; assumption.
Qed.
Lemma version_round v : version_of_str (version_str v) = v.
Proof. destruct v; reflexivity. Qed.
Lemma version_unknown t : (forall v s, In (v, s) version_names -> t <> str s) -> version_of_str t = VNone.
Proof.
  intros H. unfold version_of_str.
  repeat match goal with |- context [if beq t ?k then _ else _] =>
    let E := fresh in destruct (beq t k) eqn:E;
    [exfalso; apply beq_eq in E; (eapply H; [|exact E]); cbn; tauto|] end.
  reflexivity.
Qed.
Lemma url_text u t : url_eq_text u t = true <-> t = url_print u.
Proof. unfold url_eq_text. rewrite beq_eq. split; congruence. Qed.
Lemma url_text_parses u t : legal_url u \/ legal_origin u -> utf8_url u -> url_eq_text u t = true -> url_parse t = Ok u.
Proof. intros L U E. apply url_text in E. subst t. apply print_parse_iff; assumption. Qed.
Lemma any_case_length cs w : any_case cs w -> length cs = length w.
Proof. induction 1 as [|? ? ? ? _ _ IH]; [reflexivity|]. cbn [length]. rewrite IH. reflexivity. Qed.
