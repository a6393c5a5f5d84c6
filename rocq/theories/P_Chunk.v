(** Lemmas on chunked bodies and hexadecimal text. *)
From Coq Require Import Ascii String NArith ZArith Lia Bool List ZifyBool ZifyNat ZifyN.
From Verif Require Import Base P_Base M_Std P_Std M_Helper S_Http1 S_Hex P_Helper M_Header M_Url M_Http1 S_Http1Api P_Header P_Http1 P_Msg.
Import ListNotations.
Local Open Scope N_scope.
Ltac Zify.zify_post_hook ::= Z.div_mod_to_equations.

(** ** Digits *)
Lemma hexv_spec b d : hexv b d <-> convert_hex b = Some d.
Proof.
  unfold hexv. split.
  - intros H. assert (L : (N.to_nat d < 16)%nat).
    { destruct H as [H|H]; match type of H with nth_error ?l _ = _ => apply (proj1 (nth_error_Some l (N.to_nat d))) end; rewrite H; discriminate. }
    remember (N.to_nat d) as k eqn:Ek. assert (Ed : d = N.of_nat k) by lia. subst d. clear Ek.
    do 16 (destruct k as [|k]; [cbn in H; destruct H as [H|H]; injection H as <-; reflexivity|]). lia.
  - unfold convert_hex. intros H.
    assert (B : b < 256). { repeat match type of H with (if ?c then _ else _) = _ => destruct c eqn:?E end; try discriminate; lia. }
    assert (G : match (if (48 <=? b) && (b <=? 57) then Some (b - 48)
       else if (65 <=? b) && (b <=? 70) then Some (b - 65 + 10)
       else if (97 <=? b) && (b <=? 102) then Some (b - 97 + 10) else None) with
       | Some d => (nth (N.to_nat d) (str "0123456789abcdef") 0 =? b) && (d <? 16)
                || (nth (N.to_nat d) (str "0123456789ABCDEF") 0 =? b) && (d <? 16) | None => true end = true).
    { clear H. revert b B. apply byte_sweep. vm_compute. reflexivity. }
    rewrite H in G. rewrite orb_true_iff, !andb_true_iff, !N.eqb_eq, !N.ltb_lt in G.
    destruct G as [[G L]|[G L]]; [left|right]; rewrite <- G; apply nth_error_nth'; cbn; lia.
Qed.

Lemma convert_hex_lt b d : convert_hex b = Some d -> d < 16.
Proof.
  unfold convert_hex. intros H.
  repeat match type of H with (if ?c then _ else _) = _ => destruct c eqn:?E end; try discriminate; injection H as <-; lia.
Qed.
Lemma hexv_lt b d : hexv b d -> d < 16.
Proof. intros H. apply hexv_spec in H. eapply convert_hex_lt, H. Qed.
Lemma is_hex_spec b : is_hex b = true <-> hex_byte b.
Proof.
  unfold hex_byte. split.
  - intros H. destruct (convert_hex b) as [d|] eqn:E; [exists d; apply hexv_spec, E|].
    unfold is_hex in H. unfold convert_hex in E.
    repeat match type of E with (if ?c then _ else _) = _ => destruct c end; discriminate.
  - intros (d & H). apply hexv_spec in H. unfold convert_hex in H. unfold is_hex.
    repeat match type of H with (if ?c then _ else _) = _ => destruct c end; try reflexivity; discriminate.
Qed.
Lemma hex_val_snoc l b : hex_val (l ++ [b]) = 16 * hex_val l + hex_val_digit b.
Proof. unfold hex_val, digits_val. rewrite fold_left_app. cbn [fold_left]. lia. Qed.
Lemma hex_num_spec l n : hex_num l n <-> forallb is_hex l = true /\ n = hex_val l.
Proof.
  split.
  - induction 1 as [|l n b d H [IH1 IH2] Hd]; [split; reflexivity|].
    rewrite forallb_app, IH1, hex_val_snoc. cbn [forallb]. rewrite (proj2 (is_hex_spec b)) by (exists d; exact Hd).
    split; [reflexivity|]. apply hexv_spec in Hd. unfold hex_val_digit. rewrite Hd. subst n. reflexivity.
  - intros [H ->]. induction l as [|b l IH] using rev_ind; [constructor|].
    rewrite forallb_app in H. apply andb_true_iff in H as [H Hb]. cbn [forallb] in Hb. rewrite andb_true_r in Hb.
    rewrite hex_val_snoc. constructor; [apply IH, H|].
    apply is_hex_spec in Hb as (d & Hd). apply hexv_spec in Hd as E. unfold hex_val_digit. rewrite E. exact Hd.
Qed.
Lemma eol_not_hex e : eol e -> exists b e', e = b :: e' /\ is_hex b = false.
Proof. intros []; eexists _, _; split; reflexivity. Qed.

(** ** parse_chunk_data *)
Lemma chunk_accept ds n e r : ds <> [] -> hex_num ds n -> eol e -> n + 2 < 2 ^ 64 -> n + 2 <= blen r ->
  parse_chunk_data (ds ++ e ++ r) = Ok (blen (ds ++ e), n).
Proof.
  intros Hn Hd He H1 H2. apply hex_num_spec in Hd as [Hd ->]. unfold parse_chunk_data.
  destruct (eol_not_hex e He) as (b & e' & Ee & Hb).
  assert (E : parse_hex (ds ++ e ++ r) = Ok (ds, e ++ r)).
  { rewrite Ee. cbn [app]. apply parse_token_by_app; assumption. }
  rewrite E. cbn [bind]. cbv zeta. unfold usize_max1. 
  destruct (2 ^ 64 <=? hex_val ds) eqn:L1; [lia|]. rewrite skip_new_line_eol by exact He. cbn [bind].
  destruct (2 ^ 64 <=? hex_val ds + 2) eqn:L2; [lia|]. destruct (blen r <? hex_val ds + 2) eqn:L3; [lia|].
  rewrite !blen_app. do 2 f_equal. lia.
Qed.
Lemma chunk_sound l off n : parse_chunk_data l = Ok (off, n) ->
  exists ds e r, l = ds ++ e ++ r /\ ds <> [] /\ hex_num ds n /\ eol e /\ n + 2 < 2 ^ 64 /\ n + 2 <= blen r /\
    off = blen (ds ++ e).
Proof.
  unfold parse_chunk_data. intros H. apply bind_ok in H as ([ds r1] & H1 & H).
  apply parse_token_by_ok in H1 as (-> & Hn & Hd & _). cbv zeta in H. unfold usize_max1 in H.
  destruct (2 ^ 64 <=? hex_val ds) eqn:L1; [discriminate|].
  apply bind_ok in H as ([u r2] & H2 & H). apply skip_new_line_ok in H2 as (e & He & ->).
  destruct (2 ^ 64 <=? hex_val ds + 2) eqn:L2; [discriminate|]. destruct (blen r2 <? hex_val ds + 2) eqn:L3; [discriminate|].
  injection H as <- <-. exists ds, e, r2. rewrite !blen_app. repeat split; try assumption; try lia.
  apply hex_num_spec. auto.
Qed.
Lemma chunk_exact l off n : parse_chunk_data l = Ok (off, n) <->
  exists line rest, l = line ++ rest /\ size_line line n /\ off = blen line /\ n + 2 < 2 ^ 64 /\ n + 2 <= blen rest.
Proof.
  split.
  - intros H. apply chunk_sound in H as (ds & e & r & -> & H1 & H2 & H3 & H4 & H5 & ->).
    exists (ds ++ e), r. rewrite <- app_assoc. repeat split; auto.
  - intros (line & rest & -> & Hl & -> & H1 & H2). destruct Hl as [ds n e Hn Hd He].
    rewrite <- app_assoc. apply chunk_accept; assumption.
Qed.
Lemma chunk_stable l x : parse_chunk_data l <> partial -> parse_chunk_data (l ++ x) = parse_chunk_data l.
Proof.
  unfold parse_chunk_data. intros H.
  destruct (parse_token_by_stable is_hex (EHttp Token) false l x) as [E|E]; fold parse_hex in E.
  { rewrite E in H. contradiction. }
  rewrite E. destruct (parse_hex l) as [[ds r]|e| |] eqn:P; cbn [ext bind] in *; try reflexivity. cbv zeta in *.
  apply parse_token_by_ok in P as (-> & _ & _ & _).
  destruct (usize_max1 <=? hex_val ds); [reflexivity|].
  destruct (skip_new_line_stable r x) as [E2|E2].
  { rewrite E2 in H. contradiction. }
  rewrite E2. destruct (skip_new_line r) as [[u r2]|e| |]; cbn [ext bind] in *; try reflexivity.
  destruct (usize_max1 <=? hex_val ds + 2); [reflexivity|].
  destruct (blen r2 <? hex_val ds + 2) eqn:L; [contradiction|].
  rewrite !blen_app in *. destruct (blen r2 + blen x <? hex_val ds + 2) eqn:L2; [lia|].
  do 2 f_equal. lia.
Qed.
Lemma chunk_prefix l off n p s : parse_chunk_data l = Ok (off, n) -> l = p ++ s -> blen p < off + n + 2 ->
  parse_chunk_data p = partial.
Proof.
  intros H -> Hp.
  assert (D : parse_chunk_data p = partial \/ parse_chunk_data p <> partial).
  { destruct (parse_chunk_data p) as [?|e| |]; try (right; discriminate).
    destruct (is_partial e) eqn:P.
    - left. destruct e as [h| | | | | | |]; try discriminate. destruct h; try discriminate. reflexivity.
    - right. intros K. injection K as ->. discriminate. }
  destruct D as [D|D]; [exact D|]. exfalso. pose proof (chunk_stable p s D) as E. rewrite H in E. symmetry in E.
  apply chunk_sound in E as (ds & e & r & -> & _ & _ & _ & _ & K & ->). rewrite !blen_app in *. lia.
Qed.
Lemma hex_digit_conv d : d < 16 -> convert_hex (hex_digit d) = Some d.
Proof.
  intros H. unfold convert_hex, hex_digit. destruct (d <? 10) eqn:E.
  - destruct ((48 <=? 48 + d) && (48 + d <=? 57)) eqn:E1; [f_equal; lia|lia].
  - destruct ((48 <=? 87 + d) && (87 + d <=? 57)) eqn:E1; [lia|].
    destruct ((65 <=? 87 + d) && (87 + d <=? 70)) eqn:E2; [lia|].
    destruct ((97 <=? 87 + d) && (87 + d <=? 102)) eqn:E3; [f_equal; lia|lia].
Qed.
Lemma hex_print_num n : hex_num (hex_print n) n /\ hex_print n <> [].
Proof.
  split; [|apply print_base_nonnil; left; apply print_fuel_nz].
  apply hex_num_spec. split.
  - apply print_base_ok; [lia| |reflexivity]. intros d Hd. apply is_hex_spec. exists d. apply hexv_spec, hex_digit_conv, Hd.
  - unfold hex_val, hex_print. rewrite digits_val_fold.
    rewrite (print_base_val 16 hex_digit hex_val_digit); try reflexivity; try lia.
    + intros d Hd. unfold hex_val_digit. rewrite hex_digit_conv by exact Hd. reflexivity.
    + apply print_fuel_ok.
    + apply print_fuel_nz.
Qed.
Lemma chunk_encoded d r : blen d + 2 < 2 ^ 64 ->
  exists off, parse_chunk_data (encode_chunk_data d ++ r) = Ok (off, blen d) /\
    skipn (N.to_nat off) (encode_chunk_data d ++ r) = d ++ CRLF ++ r /\ off + blen d + 2 = blen (encode_chunk_data d).
Proof.
  intros H. exists (blen (hex_print (blen d) ++ CRLF)). destruct (hex_print_num (blen d)) as [H1 H2].
  unfold encode_chunk_data. change crlf with CRLF.
  replace ((hex_print (blen d) ++ CRLF ++ d ++ CRLF) ++ r) with (hex_print (blen d) ++ CRLF ++ (d ++ CRLF ++ r)) by (napp; reflexivity).
  split; [apply chunk_accept; auto; [constructor|]; rewrite !blen_app; change (blen CRLF) with 2; lia|]. split.
  - unfold blen. rewrite Nat2N.id, app_assoc, skipn_app, skipn_all, Nat.sub_diag. reflexivity.
  - rewrite !blen_app. change (blen CRLF) with 2. lia.
Qed.
Lemma skipn_pre (a b : bytes) : skipn (length a) (a ++ b) = b.
Proof. rewrite skipn_app, skipn_all, Nat.sub_diag. reflexivity. Qed.
Lemma firstn_pre (a b : bytes) : firstn (length a) (a ++ b) = a.
Proof. rewrite firstn_app, firstn_all, Nat.sub_diag. apply app_nil_r. Qed.
Lemma chunks_roundtrip blocks rest : forall fuel, (length blocks < fuel)%nat ->
  Forall (fun d => d <> [] /\ blen d + 2 < 2 ^ 64) blocks ->
  read_chunks fuel (concat (map encode_chunk_data blocks) ++ encode_chunk_data [] ++ rest) = Ok (blocks, rest).
Proof.
  induction blocks as [|d blocks IH]; intros fuel Hf H; (destruct fuel as [|fuel]; [lia|]); cbn [read_chunks].
  - cbn [map concat app].
    destruct (chunk_encoded [] rest) as (off & E1 & E2 & _); [vm_compute; reflexivity|]. rewrite E1. cbn [bind].
    rewrite E2. reflexivity.
  - inversion H as [|? ? [Hn Hd] Hrest]; subst. cbn [map concat]. rewrite <- app_assoc.
    set (tl := concat (map encode_chunk_data blocks) ++ encode_chunk_data [] ++ rest).
    destruct (chunk_encoded d tl Hd) as (off & E1 & E2 & _). rewrite E1. cbn [bind]. rewrite E2.
    destruct (blen d =? 0) eqn:Z.
    { destruct d; [contradiction|]. rewrite blen_cons in Z. lia. }
    replace (N.to_nat (blen d + 2)) with (length (d ++ CRLF)) by (rewrite app_length; unfold blen; cbn; lia).
    replace (N.to_nat (blen d)) with (length d) by (unfold blen; lia).
    rewrite firstn_pre. rewrite app_assoc, skipn_pre. unfold tl. rewrite IH; [reflexivity| |assumption].
    cbn [length] in Hf. lia.
Qed.
(** Numerals of at most 15 digits are below 2^60. *)
Lemma hex_val_bound l : forallb is_hex l = true -> hex_val l < 16 ^ N.of_nat (length l).
Proof.
  induction l as [|b l IH] using rev_ind; intros H; [vm_compute; reflexivity|].
  rewrite forallb_app in H. apply andb_true_iff in H as [H Hb]. cbn [forallb] in Hb. rewrite andb_true_r in Hb.
  apply is_hex_spec in Hb as (d & Hd). pose proof (hexv_lt _ _ Hd) as L. apply hexv_spec in Hd.
  rewrite hex_val_snoc. unfold hex_val_digit. rewrite Hd, app_length. cbn [length].
  rewrite Nat.add_1_r, Nat2N.inj_succ, N.pow_succ_r'. specialize (IH H). nia.
Qed.
Lemma chunk_panic l : parse_chunk_data l = Panic ->
  exists ds n b r, l = ds ++ b :: r /\ hex_num ds n /\ ~ hex_byte b /\ 2 ^ 64 <= n + 2 /\ (16 <= length ds)%nat.
Proof.
  unfold parse_chunk_data. intros H. pose proof (parse_token_by_total is_hex (EHttp Token) false l) as T. fold parse_hex in T.
  destruct (parse_hex l) as [[ds r]|e| |] eqn:P; cbn [bind] in H; try discriminate; [|destruct T; contradiction].
  apply parse_token_by_ok in P as (-> & Hn & Hd & b & r' & -> & Hb).
  exists ds, (hex_val ds), b, r'. split; [reflexivity|]. split; [apply hex_num_spec; auto|].
  split; [rewrite <- is_hex_spec; congruence|]. cbv zeta in H. unfold usize_max1 in H.
  assert (B : 2 ^ 64 <= hex_val ds + 2).
  { destruct (2 ^ 64 <=? hex_val ds) eqn:L1; [lia|].
    pose proof (skip_new_line_total (b :: r')) as T2.
    destruct (skip_new_line (b :: r')) as [[u r2]|e| |]; cbn [bind] in H; try discriminate; [|destruct T2; contradiction].
    destruct (2 ^ 64 <=? hex_val ds + 2) eqn:L2; [lia|].
    destruct (blen r2 <? hex_val ds + 2); discriminate. }
  split; [exact B|]. pose proof (hex_val_bound ds Hd) as L.
  destruct (Nat.lt_ge_cases (length ds) 16) as [K|K]; [|exact K]. exfalso.
  assert (16 ^ N.of_nat (length ds) <= 16 ^ 15) by (apply N.pow_le_mono_r; lia).
  change (16 ^ 15) with 1152921504606846976 in H0. change (2 ^ 64) with 18446744073709551616 in B. lia.
Qed.
Lemma chunk_panics ds n b r : ds <> [] -> hex_num ds n -> ~ hex_byte b -> 2 ^ 64 <= n -> parse_chunk_data (ds ++ b :: r) = Panic.
Proof.
  intros Hn Hd Hb Hl. apply hex_num_spec in Hd as [Hd ->]. unfold parse_chunk_data, parse_hex.
  rewrite parse_token_by_app; [|exact Hn|exact Hd|].
  - cbn [bind]. cbv zeta. unfold usize_max1. destruct (2 ^ 64 <=? hex_val ds) eqn:L; [reflexivity|lia].
  - rewrite <- is_hex_spec in Hb. destruct (is_hex b); congruence.
Qed.
Lemma chunk_no_diverge l : parse_chunk_data l <> Diverge.
Proof.
  unfold parse_chunk_data. pose proof (parse_token_by_total is_hex (EHttp Token) false l) as T. fold parse_hex in T.
  destruct (parse_hex l) as [[ds r]|e| |]; cbn [bind]; try discriminate; [|destruct T; contradiction].
  cbv zeta. destruct (usize_max1 <=? hex_val ds); [discriminate|].
  pose proof (skip_new_line_total r) as T2.
  destruct (skip_new_line r) as [[u r2]|e| |]; cbn [bind]; try discriminate; [|destruct T2; contradiction].
  destruct (usize_max1 <=? hex_val ds + 2); [discriminate|].
  destruct (blen r2 <? hex_val ds + 2); discriminate.
Qed.

(** ** hex_to_vec *)
Lemma hex_loop_spaces p n l : hex_to_vec_loop p (spaces n ++ l) = hex_to_vec_loop p l.
Proof. induction n as [|n IH]; [reflexivity|exact IH]. Qed.
Lemma hexv_not_sp b d : hexv b d -> (b =? 32) = false.
Proof.
  intros H. apply hexv_spec in H. destruct (b =? 32) eqn:E; [|reflexivity]. apply N.eqb_eq in E. subst b. discriminate.
Qed.
Lemma hex_text_ok l out : hex_text l out -> hex_to_vec l = Ok out.
Proof.
  unfold hex_to_vec. induction 1 as [n|i a x n Ha|i a x j b y l out Ha Hb H IH].
  - rewrite <- (app_nil_r (spaces n)), hex_loop_spaces. reflexivity.
  - rewrite hex_loop_spaces. cbn [hex_to_vec_loop]. rewrite (hexv_not_sp a x Ha).
    apply hexv_spec in Ha. rewrite Ha. rewrite <- (app_nil_r (spaces n)), hex_loop_spaces. reflexivity.
  - rewrite hex_loop_spaces. cbn [hex_to_vec_loop]. rewrite (hexv_not_sp a x Ha).
    apply hexv_spec in Ha. rewrite Ha. rewrite hex_loop_spaces. cbn [hex_to_vec_loop]. rewrite (hexv_not_sp b y Hb).
    apply hexv_spec in Hb. rewrite Hb. rewrite IH. cbn [bind]. do 2 f_equal. lia.
Qed.
Lemma hex_text_cons l out i : hex_text l out -> hex_text (spaces i ++ l) out.
Proof.
  assert (G : forall i j (k : bytes), spaces i ++ spaces j ++ k = spaces (i + j) ++ k).
  { intros a b k. unfold spaces. rewrite repeat_app, app_assoc. reflexivity. }
  intros H. destruct H as [n|j a x n Ha|j a x k b y l out Ha Hb H].
  - rewrite <- (app_nil_r (spaces n)), G, app_nil_r. constructor.
  - rewrite G. econstructor. exact Ha.
  - rewrite G. constructor; assumption.
Qed.
Lemma hex_sound l : forall out,
  (hex_to_vec_loop None l = Ok out -> hex_text l out) /\
  (forall x, hex_to_vec_loop (Some x) l = Ok out ->
     (exists n, l = spaces n /\ out = []) \/
     (exists j b y r out', l = spaces j ++ b :: r /\ hexv b y /\ out = x * 16 + y :: out' /\ hex_text r out')).
Proof.
  induction l as [|b l IH]; intros out.
  - split; [intros H; injection H as <-; apply (ht_end 0)|]. intros x H. injection H as <-. left. exists 0%nat. auto.
  - cbn [hex_to_vec_loop]. destruct (b =? 32) eqn:E.
    + apply N.eqb_eq in E. subst b. split.
      * intros H. apply IH in H. change (32 :: l) with (spaces 1 ++ l). apply hex_text_cons, H.
      * intros x H. apply IH in H as [(n & -> & ->)|(j & b & y & r & out' & -> & H)].
        -- left. exists (S n). auto.
        -- right. exists (S j), b, y, r, out'. auto.
    + destruct (convert_hex b) as [d|] eqn:Ed; [|split; [discriminate|intros; discriminate]].
      apply hexv_spec in Ed. split.
      * intros H. destruct (proj2 (IH out) d H) as [(n & -> & ->)|(j & b' & y & r & out' & -> & Hb & -> & Hr)].
        -- apply (ht_odd 0 b d n Ed).
        -- replace (d * 16 + y) with (16 * d + y) by lia. apply (ht_byte 0 b d j b' y r out' Ed Hb Hr).
      * intros x H. apply bind_ok in H as (r & H & K). injection K as <-. right.
        exists 0%nat, b, d, l, r. repeat split; auto. apply IH, H.
Qed.
Lemma hex_to_vec_spec l out : hex_to_vec l = Ok out <-> hex_text l out.
Proof. split; [apply hex_sound|apply hex_text_ok]. Qed.
Lemma hex_loop_total l : forall p, (exists out, hex_to_vec_loop p l = Ok out) \/ 
  (hex_to_vec_loop p l = Panic /\ exists b, In b l /\ b <> SP /\ ~ hex_byte b).
Proof.
  induction l as [|b l IH]; intros p; [left; eexists; reflexivity|]. cbn [hex_to_vec_loop].
  assert (T : forall P : Prop, P /\ (exists b, In b l /\ b <> SP /\ ~ hex_byte b) -> P /\ (exists b', In b' (b :: l) /\ b' <> SP /\ ~ hex_byte b')).
  { intros P (H & c & Hc & K). split; [exact H|]. exists c. split; [right; exact Hc|exact K]. }
  destruct (b =? 32) eqn:E; [destruct (IH p) as [K|K]; [left; exact K|right; apply T, K]|].
  destruct (convert_hex b) as [d|] eqn:Ed.
  - destruct p as [v|].
    + destruct (IH None) as [(o & K)|[K1 K2]].
      * rewrite K. left. eexists. reflexivity.
      * rewrite K1. right. apply T. split; [reflexivity|exact K2].
    + destruct (IH (Some d)) as [K|K]; [left; exact K|right; apply T, K].
  - right. split; [reflexivity|]. exists b. split; [left; reflexivity|]. split; [apply N.eqb_neq, E|].
    intros (d & Hd). apply hexv_spec in Hd. congruence.
Qed.
Lemma hex_loop_bad l : forall p b, In b l -> b <> SP -> ~ hex_byte b -> hex_to_vec_loop p l = Panic.
Proof.
  induction l as [|c l IH]; intros p b Hin Hs Hb; [destruct Hin|]. cbn [hex_to_vec_loop].
  destruct Hin as [->|Hin].
  - apply N.eqb_neq in Hs. unfold SP in Hs. rewrite Hs. destruct (convert_hex b) as [d|] eqn:E; [|reflexivity].
    exfalso. apply Hb. exists d. apply hexv_spec, E.
  - destruct (c =? 32); [apply (IH p b); assumption|]. destruct (convert_hex c) as [d|]; [|reflexivity].
    destruct p as [v|]; rewrite (IH _ b) by assumption; reflexivity.
Qed.
Lemma hex_to_vec_panic l : hex_to_vec l = Panic <-> exists b, In b l /\ b <> SP /\ ~ hex_byte b.
Proof.
  split.
  - intros H. destruct (hex_loop_total l None) as [(o & K)|[_ K]]; [unfold hex_to_vec in H; congruence|exact K].
  - intros (b & H1 & H2 & H3). apply (hex_loop_bad l None b); assumption.
Qed.
Lemma hex_pair_ok b : b < 256 -> exists x y, hexv (nth 0 (hex_pair b) 0) x /\ hexv (nth 1 (hex_pair b) 0) y /\ 16 * x + y = b.
Proof.
  intros H. exists (b / 16), (b mod 16). unfold hex_pair, hexv. cbn [nth].
  split; [left; apply nth_error_nth'; cbn; lia|]. split; [left; apply nth_error_nth'; cbn; lia|lia].
Qed.
Lemma hex_pairs_roundtrip bs : bytes_ok bs -> hex_to_vec (concat (map hex_pair bs)) = Ok bs.
Proof.
  intros H. apply hex_to_vec_spec. induction bs as [|b bs IH]; [apply (ht_end 0)|].
  apply bytes_ok_cons in H as [Hb H]. destruct (hex_pair_ok b Hb) as (x & y & Hx & Hy & E).
  cbn [map concat]. unfold hex_pair at 1. cbn [app]. unfold hex_pair in Hx, Hy. cbn [nth] in Hx, Hy.
  rewrite <- E at 3. apply (ht_byte 0 _ x 0 _ y); auto.
Qed.
Lemma chunk_wire d : exists ds, ds <> [] /\ hex_num ds (blen d) /\ encode_chunk_data d = ds ++ [13; 10] ++ d ++ [13; 10].
Proof. exists (hex_print (blen d)). destruct (hex_print_num (blen d)) as [H1 H2]. split; [exact H2|]. split; [exact H1|reflexivity]. Qed.
Lemma chunk_encoded_prefix d p s : blen d + 2 < 2 ^ 64 -> encode_chunk_data d = p ++ s -> s <> [] -> parse_chunk_data p = partial.
Proof.
  intros H E Hs. destruct (chunk_encoded d [] H) as (off & E1 & _ & E2). rewrite app_nil_r in E1.
  apply (chunk_prefix _ _ _ p s E1 E). rewrite E2, E, blen_app. destruct s; [contradiction|]. rewrite blen_cons. lia.
Qed.
Lemma chunk_total l :
  (forall ds n b r, l = ds ++ b :: r -> hex_num ds n -> ~ hex_byte b -> n + 2 < 2 ^ 64) ->
  parse_chunk_data l <> Panic /\ parse_chunk_data l <> Diverge.
Proof.
  intros H. split; [|apply chunk_no_diverge]. intros P. apply chunk_panic in P as (ds & n & b & r & -> & Hd & Hb & Hn & _).
  specialize (H ds n b r eq_refl Hd Hb). lia.
Qed.
Lemma chunk_total_short l : (forall ds r, l = ds ++ r -> Forall hex_byte ds -> (length ds < 16)%nat) ->
  parse_chunk_data l <> Panic /\ parse_chunk_data l <> Diverge.
Proof.
  intros H. split; [|apply chunk_no_diverge]. intros P. apply chunk_panic in P as (ds & n & b & r & -> & Hd & Hb & Hn & L).
  specialize (H ds (b :: r) eq_refl). apply hex_num_spec in Hd as [Hd _].
  assert (F : Forall hex_byte ds) by (apply Forall_forall; intros c Hc; apply is_hex_spec; apply (proj1 (forallb_forall is_hex ds) Hd c Hc)).
  specialize (H F). lia.
Qed.
