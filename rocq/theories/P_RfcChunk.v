(** Lemmas on chunked bodies that are received and sent on (C128). *)
From Coq Require Import Ascii String NArith ZArith Lia Bool List ZifyBool ZifyNat ZifyN.
From Verif Require Import Base P_Base M_Std P_Std M_Helper P_Helper P_Http1 S_Hex S_Http1 S_Http1Api P_Msg P_Chunk S_Url S_Rfc9112 P_Rfc9112 S_RfcBody P_RfcBody S_RfcChunk.
Import ListNotations.
Local Open Scope N_scope.

Definition small (b : N) : Prop := In b (str "0123456789abcdef").
Lemma small_digit b d : small b -> hexv b d -> b = hex_digit d.
Proof.
  intros H K. apply hexv_spec in K. unfold small in H. cbn in H.
  repeat destruct H as [<-|H]; try (vm_compute in K; injection K as <-; reflexivity). destruct H.
Qed.
Lemma digit_small d : d < 16 -> small (hex_digit d).
Proof.
  intros H. unfold small. assert (K : exists k, (k < 16)%nat /\ d = N.of_nat k) by (exists (N.to_nat d); lia).
  destruct K as (k & K & ->). do 16 (destruct k as [|k]; [vm_compute; tauto|]). lia.
Qed.
Lemma hex_num_inv l b n : hex_num (l ++ [b]) n -> exists m d, hex_num l m /\ hexv b d /\ n = 16 * m + d.
Proof.
  intros H. inversion H as [E|l' m b' d H1 H2 E].
  - destruct l; discriminate.
  - apply app_inj_tail in E as [-> ->]. exists m, d. auto.
Qed.
Lemma hd_snoc (l : bytes) b : l <> [] -> hd_error (l ++ [b]) = hd_error l.
Proof. destruct l; [contradiction|reflexivity]. Qed.
(** Without zeros in front only the empty numeral is zero. *)
Lemma lead_zero l : forall n, hex_num l n -> hd_error l <> Some 48 -> n = 0 -> l = [].
Proof.
  induction l as [|b l IH] using rev_ind; intros n H K E; [reflexivity|exfalso].
  destruct (hex_num_inv _ _ _ H) as (m & d & H1 & H2 & ->).
  assert (m = 0 /\ d = 0) as [-> ->] by lia.
  assert (l = []) as ->.
  { destruct l as [|x l]; [reflexivity|]. apply (IH 0 H1); [|reflexivity]. rewrite hd_snoc in K by discriminate. exact K. }
  cbn in K. apply hexv_spec in H2. apply K. f_equal.
  unfold convert_hex in H2. destruct ((48 <=? b) && (b <=? 57)) eqn:E1; [injection H2 as H2; lia|].
  destruct ((65 <=? b) && (b <=? 70)) eqn:E2; [injection H2 as H2; lia|].
  destruct ((97 <=? b) && (b <=? 102)) eqn:E3; [injection H2 as H2; lia|discriminate].
Qed.
Lemma lead_unique l1 : forall l2 n, Forall small l1 -> Forall small l2 -> hd_error l1 <> Some 48 -> hd_error l2 <> Some 48 ->
  hex_num l1 n -> hex_num l2 n -> l1 = l2.
Proof.
  induction l1 as [|b1 l1 IH] using rev_ind; intros l2 n F1 F2 K1 K2 H1 H2.
  - assert (n = 0) by (inversion H1 as [E E'|l' m b' d X1 X2 E]; [reflexivity|destruct l'; discriminate]). symmetry. eapply lead_zero; eassumption.
  - destruct l2 as [|b2 l2 _] using rev_ind.
    { assert (n = 0) by (inversion H2 as [E E'|l' m b' d X1 X2 E]; [reflexivity|destruct l'; discriminate]). eapply lead_zero; eassumption. }
    apply Forall_app in F1 as [F1 G1]. apply Forall_app in F2 as [F2 G2]. apply Forall_inv in G1. apply Forall_inv in G2.
    destruct (hex_num_inv _ _ _ H1) as (m1 & d1 & X1 & Y1 & Z1). destruct (hex_num_inv _ _ _ H2) as (m2 & d2 & X2 & Y2 & Z2).
    pose proof (hexv_lt _ _ Y1). pose proof (hexv_lt _ _ Y2). assert (m1 = m2 /\ d1 = d2) as [<- <-] by lia.
    rewrite (small_digit _ _ G1 Y1), (small_digit _ _ G2 Y2). f_equal.
    assert (W : forall l b, hd_error (l ++ [b]) <> Some 48 -> hd_error l <> Some 48).
    { intros l b W. destruct l; [discriminate|exact W]. }
    apply (IH l2 m1); eauto.
Qed.
Lemma print_short n : short_num (hex_print n).
Proof.
  split.
  - apply Forall_forall. intros b Hb.
    pose proof (print_base_ok 16 hex_digit (fun b => existsb (N.eqb b) (str "0123456789abcdef")) (print_fuel n)) as K.
    assert (G : forall d, d < 16 -> existsb (N.eqb (hex_digit d)) (str "0123456789abcdef") = true).
    { intros d Hd. apply existsb_exists. exists (hex_digit d). split; [apply digit_small, Hd|apply N.eqb_refl]. }
    specialize (K ltac:(lia) G n [] eq_refl). rewrite forallb_forall in K. specialize (K b Hb).
    apply existsb_exists in K as (x & X1 & X2). apply N.eqb_eq in X2 as ->. exact X1.
  - destruct (N.eq_dec n 0) as [->|H]; [left; reflexivity|right].
    destruct (print_base_head 16 hex_digit (print_fuel n) ltac:(lia) n [] (print_fuel_ok n) H) as (b & r & E & B1 & B2).
    unfold hex_print. rewrite E. cbn. unfold hex_digit. intros X. injection X as X. destruct (b <? 10) eqn:E1; lia.
Qed.
Lemma zero_num : hex_num [48] 0.
Proof. apply (repeat_zero 0). Qed.
Lemma short_unique l n : short_num l -> l <> [] -> hex_num l n -> l = hex_print n.
Proof.
  intros [F K] Hn H. destruct (print_short n) as [F' K']. destruct (hex_print_num n) as [H' Hn'].
  assert (D : forall x, hex_num x n -> x <> [] -> (x = str "0" \/ hd_error x <> Some 48) -> (n = 0 /\ x = [48]) \/ (n <> 0 /\ hd_error x <> Some 48)).
  { intros x X1 X2 [->|X3].
    - left. split; [|reflexivity]. destruct (hex_num_inv [] 48 n X1) as (m & d & Y1 & Y2 & ->).
      apply hexv_spec in Y2. vm_compute in Y2. injection Y2 as <-. inversion Y1 as [E E'|l' m' b' d X1' X2' E]; [reflexivity|destruct l'; discriminate].
    - right. split; [|exact X3]. intros ->. apply X2. eapply lead_zero; [exact X1|exact X3|reflexivity]. }
  destruct (D l H Hn K) as [[E1 ->]|[E1 A1]], (D _ H' Hn' K') as [[E2 A2]|[E2 A2]]; try congruence.
  eapply lead_unique; eassumption.
Qed.
Lemma short_iff l n : l <> [] -> hex_num l n -> (short_num l <-> l = hex_print n).
Proof. intros H1 H2. split; [intros H; exact (short_unique _ _ H H1 H2)|intros ->; apply print_short]. Qed.

(** There are fewer blocks than octets. *)
Lemma lax_count l ds rest : lax_body l ds rest -> (length ds + length rest < length l)%nat.
Proof. induction 1; repeat (cbn [length] in * || rewrite app_length in * ); lia. Qed.
Lemma passed_lax l w rest : passed_on l = Ok (w, rest) <->
  exists ds, lax_body l ds rest /\ w = concat (map encode_chunk_data ds) ++ encode_chunk_data [].
Proof.
  unfold passed_on. split.
  - destruct (read_chunks (S (length l)) l) as [[ds r]| | |] eqn:E; try discriminate. intros X. injection X as <- <-.
    exists ds. split; [apply (proj1 (body_accepted _ _ _ _)) in E; apply E|reflexivity].
  - intros (ds & H & ->). pose proof (lax_count _ _ _ H). rewrite (lax_read _ _ _ H) by lia. reflexivity.
Qed.
Lemma lax_counted l ds rest : lax_body l ds rest -> Forall (fun d => d <> [] /\ blen d + 2 < 2 ^ 64) ds.
Proof. induction 1; constructor; auto. Qed.
(** Whatever is taken, what is sent on is a body of the RFC in its shortest form. *)
Lemma passed_any l w rest : passed_on l = Ok (w, rest) ->
  exists b, chunked_ok b /\ counted b /\ plain b /\ short_sizes b /\ w = chunked_text b /\ lax_body l (chunked_data b) rest.
Proof.
  intros H. apply passed_lax in H as (ds & H & ->). pose proof (lax_counted _ _ _ H) as C.
  exists (mkChunked (map (fun d => mkChunk (hex_print (blen d)) [] d) ds) 0 [] []).
  unfold chunked_ok, counted, plain, chunked_data, chunked_text, short_sizes. cbn [cd_chunks cd_zeros cd_ext cd_trailer].
  repeat match goal with |- _ /\ _ => split end.
  - apply Forall_map. eapply Forall_impl; [|exact C]. intros d [Hd _]. unfold chunk_ok. cbn [ck_size ck_ext ck_data].
    destruct (hex_print_num (blen d)) as [X1 X2]. repeat match goal with |- _ /\ _ => split end; [exact X2|exact X1|left; reflexivity|exact Hd].
  - left. reflexivity.
  - constructor.
  - apply Forall_map. eapply Forall_impl; [|exact C]. intros d [_ Hd]. exact Hd.
  - apply Forall_map, Forall_forall. reflexivity.
  - reflexivity.
  - reflexivity.
  - apply Forall_map, Forall_forall. intros d _. apply print_short.
  - reflexivity.
  - rewrite map_map. reflexivity.
  - rewrite map_map. cbn [ck_data]. rewrite map_id. exact H.
Qed.
Lemma passed_twice l w rest more : passed_on l = Ok (w, rest) -> passed_on (w ++ more) = Ok (w, more).
Proof.
  intros H. apply passed_lax in H as (ds & H & ->). apply passed_lax. exists ds. split; [|reflexivity].
  pose proof (chunks_roundtrip ds more (S (length ds)) (Nat.lt_succ_diag_r _) (lax_counted _ _ _ H)) as K. rewrite <- app_assoc.
  apply (proj1 (body_accepted _ _ _ _)) in K. apply K.
Qed.
Lemma read_fuel b rest : chunked_ok b -> (length (chunked_data b) < S (length (chunked_text b ++ rest)))%nat.
Proof.
  intros (H & _). unfold chunked_data, chunked_text. rewrite map_length, !app_length.
  assert (G : (length (cd_chunks b) <= length (concat (map chunk_text (cd_chunks b))))%nat); [|lia].
  clear H. induction (cd_chunks b) as [|c cs IH]; [cbn; lia|]. cbn [map concat length]. unfold chunk_text at 1. rewrite !app_length. cbn [length CRLF]. lia.
Qed.
Lemma passed_trailer b rest : chunked_ok b -> counted b -> Forall (fun c => ck_ext c = []) (cd_chunks b) -> cd_ext b = [] ->
  passed_on (chunked_text b ++ rest) =
    Ok (concat (map encode_chunk_data (chunked_data b)) ++ encode_chunk_data [], skipn 2 (lines_text (cd_trailer b)) ++ rest).
Proof.
  intros H1 H2 H3 H4. unfold passed_on. rewrite trailer_left; [reflexivity|assumption..|apply read_fuel, H1].
Qed.
Lemma passed_ext b rest w r : chunked_ok b -> counted b -> passed_on (chunked_text b ++ rest) = Ok (w, r) ->
  Forall (fun c => ck_ext c = []) (cd_chunks b) /\ cd_ext b = [].
Proof.
  intros H1 H2 H. unfold passed_on in H. destruct (read_chunks _ _) as [[ds r']| | |] eqn:E; try discriminate.
  exact (body_refused _ _ _ _ _ H1 H2 E).
Qed.
Lemma cr_not_hex : ~ hex_byte CR.
Proof. intros X. apply is_hex_spec in X. vm_compute in X. discriminate. Qed.
Lemma repeat_len k (t1 t2 : bytes) : [48] ++ t1 = (48 :: repeat 48 k) ++ t2 -> length t1 = length t2 -> k = 0%nat.
Proof. intros H E. apply (f_equal (@length _)) in H. rewrite !app_length in H. cbn [length] in H. rewrite repeat_length in H. lia. Qed.
(** The octets are the same exactly if the sizes were written the same way. *)
Lemma text_same_iff cs k : Forall chunk_ok cs -> Forall (fun c => ck_ext c = []) cs ->
  (concat (map encode_chunk_data (map ck_data cs)) ++ encode_chunk_data [] = concat (map chunk_text cs) ++ 48 :: repeat 48 k ++ CRLF ++ CRLF <->
   Forall (fun c => ck_size c = hex_print (blen (ck_data c))) cs /\ k = 0%nat).
Proof.
  intros H X. split.
  - induction cs as [|c cs IH]; cbn [map concat]; intros E.
    + split; [constructor|]. apply (repeat_len k (CRLF ++ CRLF) (CRLF ++ CRLF)); [exact E|reflexivity].
    + pose proof (Forall_inv H) as (C1 & C2 & _). pose proof (Forall_inv X) as Y. apply Forall_inv_tail in H. apply Forall_inv_tail in X.
      unfold encode_chunk_data at 1, chunk_text at 1 in E. rewrite Y in E. change crlf with CRLF in E. rewrite <- !app_assoc in E. cbn [app] in E.
      destruct (hex_print_num (blen (ck_data c))) as [P _].
      apply (span_cut hex_byte) in E as [E1 E2]; [|exact (hex_forall _ _ P)|exact (hex_forall _ _ C2)| |].
      * apply app_inv_head in E2. apply app_inv_head in E2. apply app_inv_head in E2.
        destruct (IH H X E2) as [I1 I2]. split; [constructor; [symmetry; exact E1|exact I1]|exact I2].
      * right. eexists _, _. split; [reflexivity|apply cr_not_hex].
      * right. eexists _, _. split; [reflexivity|apply cr_not_hex].
  - intros [F ->]. f_equal. f_equal. rewrite map_map. apply map_ext_in. intros c Hc.
    pose proof (proj1 (Forall_forall _ _) F c Hc) as F1. pose proof (proj1 (Forall_forall _ _) X c Hc) as F2.
    cbn in F1, F2. unfold encode_chunk_data, chunk_text. rewrite F1, F2. reflexivity.
Qed.
Lemma passed_same b rest : chunked_ok b -> counted b ->
  (passed_on (chunked_text b ++ rest) = Ok (chunked_text b, rest) <-> plain b /\ short_sizes b).
Proof.
  intros H1 H2.
  assert (S : Forall (fun c => ck_ext c = []) (cd_chunks b) -> (short_sizes b <-> Forall (fun c => ck_size c = hex_print (blen (ck_data c))) (cd_chunks b) /\ cd_zeros b = 0%nat)).
  { intros _. unfold short_sizes. destruct H1 as (C & _). rewrite !Forall_forall in *. split; intros [A B]; (split; [|exact B]); intros c Hc;
    destruct (C c Hc) as (C1 & C2 & _); apply (short_iff _ _ C1 C2), A, Hc. }
  destruct b as [cs k e ls].
  split.
  - intros H. destruct (passed_ext _ _ _ _ H1 H2 H) as [E1 E2]. rewrite passed_trailer in H by assumption.
    injection H as H3 H4. cbn [cd_chunks cd_zeros cd_ext cd_trailer] in *. subst e.
    assert (ls = []) as ->.
    { destruct ls as [|x ls]; [reflexivity|exfalso]. pose proof (lines_longer x ls) as L. set (t := lines_text (x :: ls)) in *.
      apply (f_equal (@length _)) in H4. rewrite app_length in H4.
      change (match t with [] => [] | _ :: l0 => match l0 with [] => [] | _ :: l1 => l1 end end) with (skipn 2 t) in H4. rewrite skipn_length in H4. unfold blen in L. lia. }
    split; [repeat split; assumption|]. apply S; [assumption|]. apply (text_same_iff cs k); [apply H1|assumption|]. exact H3.
  - intros [(P1 & P2 & P3) P4]. rewrite passed_trailer by assumption. apply S in P4; [|exact P1].
    cbn [cd_chunks cd_zeros cd_ext cd_trailer] in *. subst e ls.
    apply (text_same_iff cs k) in P4; [|apply H1|exact P1]. unfold chunked_data, chunked_text. cbn [cd_chunks cd_zeros cd_ext cd_trailer].
    rewrite P4. reflexivity.
Qed.
Lemma passed_content b rest : chunked_ok b -> counted b -> plain b ->
  exists b', chunked_ok b' /\ plain b' /\ short_sizes b' /\ chunked_data b' = chunked_data b /\
    passed_on (chunked_text b ++ rest) = Ok (chunked_text b', rest).
Proof.
  intros H1 H2 (P1 & P2 & P3). pose proof (passed_trailer b rest H1 H2 P1 P2) as E. rewrite P3 in E.
  change (skipn 2 (lines_text []) ++ rest) with rest in E.
  destruct (passed_any _ _ _ E) as (b' & B1 & B2 & B3 & B4 & B5 & B6). exists b'. repeat (split; [assumption|]).
  rewrite <- B5. split; [|exact E].
  pose proof (lax_count _ _ _ B6). pose proof (lax_read _ _ _ B6 (S (length (chunked_text b ++ rest))) ltac:(lia)) as R.
  rewrite (proj2 (body_read b rest _ H1 H2 (read_fuel b rest H1)) (conj P1 (conj P2 P3))) in R. injection R as R. symmetry. exact R.
Qed.
Lemma passed_but : forall b rest, chunked_ok b -> counted b -> Forall (fun c => ck_ext c = []) (cd_chunks b) -> cd_ext b = [] ->
  exists b', chunked_ok b' /\ plain b' /\ short_sizes b' /\ chunked_data b' = chunked_data b /\
    passed_on (chunked_text b ++ rest) = Ok (chunked_text b', skipn 2 (lines_text (cd_trailer b)) ++ rest).
Proof.
  intros b rest H1 H2 H3 H4.
  set (b0 := mkChunked (cd_chunks b) (cd_zeros b) [] []).
  assert (B1 : chunked_ok b0) by (split; [apply H1|split; [left; reflexivity|constructor]]).
  assert (B2 : plain b0) by (split; [exact H3|split; reflexivity]).
  destruct (passed_content b0 rest B1 H2 B2) as (b' & A1 & A2 & A3 & A4 & A5). exists b'. repeat (split; [assumption|]).
  rewrite passed_trailer by assumption. rewrite (passed_trailer b0 rest) in A5; [|assumption..|reflexivity].
  change (chunked_data b0) with (chunked_data b) in A5. injection A5 as A5. rewrite A5. reflexivity.
Qed.
