(** Lemmas for C120. *)
From Coq Require Import Ascii String NArith ZArith Lia Bool List Permutation ZifyBool ZifyNat ZifyN.
From Verif Require Import Base S_Utf8 P_Base M_Header P_Header M_Url M_Http1 S_Http1Api S_Url M_Std P_Msg M_Hpack S_Hpack P_Huffman
  M_Frame M_H2 S_Frame S_FrameAll S_Rfc9112 S_Rfc9113 P_Rfc9113 S_RfcMeans P_RfcMeans S_WriteAll S_RfcFrames P_RfcFrames S_RfcSend P_RfcSend P_WriteAll S_RfcAsk S_Http1.
Import ListNotations.
Local Open Scope N_scope.

(** *** Header maps *)
Lemma insert_length h n v : hm_insert h n v = h ++ [(n, v)] \/ length (hm_insert h n v) = length h.
Proof.
  induction h as [|[n' v'] h IH]; [left; reflexivity|]. cbn [hm_insert]. destruct (name_eq n' n); [right; reflexivity|].
  destruct IH as [->|IH]; [left; reflexivity|right; cbn [length]; rewrite IH; reflexivity].
Qed.
Lemma insert_short h n v : (length (hm_insert h n v) <= length h + 1)%nat.
Proof. destruct (insert_length h n v) as [->|E]; [rewrite app_length; cbn; lia|lia]. Qed.
Lemma insert_all_cons h f fs : hm_insert_all h (f :: fs) = hm_insert_all (hm_insert h (fst f) (snd f)) fs.
Proof. reflexivity. Qed.
Lemma insert_all_short fs : forall h, (length (hm_insert_all h fs) <= length h + length fs)%nat.
Proof.
  induction fs as [|f fs IH]; intros h; [cbn; lia|]. rewrite insert_all_cons. pose proof (IH (hm_insert h (fst f) (snd f))).
  pose proof (insert_short h (fst f) (snd f)). cbn [length]. lia.
Qed.
Lemma insert_all_full fs : forall h, length (hm_insert_all h fs) = (length h + length fs)%nat -> hm_insert_all h fs = h ++ fs.
Proof.
  induction fs as [|[n v] fs IH]; intros h E; [rewrite app_nil_r; reflexivity|]. rewrite insert_all_cons in *. cbn [fst snd length] in *.
  destruct (insert_length h n v) as [X|X].
  - rewrite X in *. rewrite IH; [rewrite <- app_assoc; reflexivity|]. rewrite E, app_length. cbn. lia.
  - pose proof (insert_all_short fs (hm_insert h n v)). lia.
Qed.
Lemma insert_all_two h fs : distinct_names h -> hm_insert_all h fs = hm_insert_all [] (h ++ fs).
Proof.
  intros D. apply insert_all_same in D. unfold hm_insert_all in *. rewrite fold_left_app, <- D. reflexivity.
Qed.
Lemma behind_iff h fs : distinct_names h -> (length (hm_insert_all h fs) = (length h + length fs)%nat <-> distinct_names (h ++ fs)).
Proof.
  intros D. split.
  - intros E. apply insert_all_full in E. apply insert_all_same. rewrite <- insert_all_two by exact D. symmetry. exact E.
  - intros E. apply insert_all_same in E. rewrite insert_all_two by exact D. rewrite <- E. apply app_length.
Qed.
Lemma behind_app h fs : distinct_names (h ++ fs) -> distinct_names h -> hm_insert_all h fs = h ++ fs.
Proof. intros E D. apply insert_all_full, behind_iff; assumption. Qed.

(** *** The pseudo header fields *)
Definition four (m s a p : bytes) : list hfield := [(str ":method", m); (str ":authority", a); (str ":scheme", s); (str ":path", p)].
Lemma four_distinct m s a p : distinct_names (four m s a p).
Proof. cbn [four distinct_names]. repeat split; repeat apply Forall_cons; try apply Forall_nil; vm_compute; reflexivity. Qed.
Lemma four_made m u pr d : u_scheme u <> ScNone -> u_domain u = Some d -> u_path u <> [] ->
  parts_encode_header (parts_request m u pr) [] = four (method_str m) (scheme_str (u_scheme u)) d (u_path u).
Proof.
  intros S D P. unfold parts_request, parts_encode_header. cbn [pt_method pt_scheme pt_authority pt_path pt_status option_map].
  rewrite D. destruct (u_path u) as [|b p]; [contradiction|]. destruct (u_scheme u); try contradiction; reflexivity.
Qed.
Lemma four_lower m s a p : map lower_field (four m s a p) = four m s a p.
Proof. reflexivity. Qed.
Lemma four_perm m s a p : Permutation (four m s a p) (pseudo_request m s a p).
Proof. unfold four, pseudo_request. apply perm_skip. apply perm_swap. Qed.
Lemma four_values m s a p m' s' a' p' : Permutation (four m s a p) (pseudo_request m' s' a' p') -> m = m' /\ s = s' /\ a = a' /\ p = p'.
Proof.
  intros P.
  assert (K : forall f, In f (four m s a p) -> In f (pseudo_request m' s' a' p')) by (intros f; apply Permutation_in, P).
  repeat split.
  - destruct (K (str ":method", m)) as [E|[E|[E|[E|[]]]]]; [cbn; auto|injection E as <-; reflexivity|discriminate E..].
  - destruct (K (str ":scheme", s)) as [E|[E|[E|[E|[]]]]]; [cbn; auto|discriminate E|injection E as <-; reflexivity|discriminate E..].
  - destruct (K (str ":authority", a)) as [E|[E|[E|[E|[]]]]]; [cbn; auto|discriminate E..|injection E as <-; reflexivity|discriminate E].
  - destruct (K (str ":path", p)) as [E|[E|[E|[E|[]]]]]; [cbn; auto|discriminate E..|injection E as <-; reflexivity].
Qed.
Lemma distinct_same_names h h' fs : map fst h = map fst h' -> distinct_names (h ++ fs) -> distinct_names (h' ++ fs).
Proof. intros E. apply distinct_names_map. rewrite !map_app, E. reflexivity. Qed.

(** *** URLs *)
Lemma text_not_longer raw s : text_of raw s -> (length s <= length raw)%nat.
Proof. intros [F _]. apply pct_shorter, F. Qed.
Lemma text_itself raw x s : text_of raw s -> raw ++ x = s -> x = [] /\ raw = s /\ ~ In 37 s.
Proof.
  intros T E. pose proof (text_not_longer _ _ T) as L. rewrite <- E, app_length in L. destruct x; [|cbn in L; lia]. rewrite app_nil_r in E. subst s.
  split; [reflexivity|]. split; [reflexivity|]. destruct T as [F _]. apply (pct_equal _ _ F eq_refl).
Qed.
Lemma pct_text_plain (P : N -> Prop) l : pct_text P l -> ~ In 37 l -> Forall P l.
Proof.
  induction 1 as [|b l Hb H IH|c d l Hc Hd H IH]; intros N.
  - constructor.
  - constructor; [assumption|apply IH; intros X; apply N; right; exact X].
  - exfalso. apply N. left. reflexivity.
Qed.
Lemma pct_text_all (P : N -> Prop) l : Forall P l -> pct_text P l.
Proof. induction 1; constructor; assumption. Qed.
Lemma ascii_text l : Forall (fun b => b < 128) l -> ~ In 37 l -> text_of l l.
Proof. intros A N. split; [apply plain_form, N|]. apply utf8_valid_iff, utf8_valid_ascii, A. Qed.
Lemma no_escape l : Forall (fun b => pchar b \/ b = 47) l -> ~ In 37 l.
Proof. intros F I. rewrite Forall_forall in F. apply F in I. unfold pchar, unreserved, sub_delim, alpha, upper, lower, digit in I. cbn in I. lia. Qed.

Lemma request_exactly m u pr fs : asks m u fs (map lower_field (request_behind m u pr fs)) <-> request_sendable m u fs.
Proof.
  split.
  - intros (r & d & n & (O1 & O2 & O3 & O4 & O5 & O6 & O7 & O8 & O9 & O10) & (ps & PP & E) & M & (U1 & U2 & U3 & U4 & U5 & U6 & U7 & U8 & U9 & U10) & F).
    apply abs_path_meant in U9; [|exact O7].
    assert (NP : u_path u <> []).
    { intros K. rewrite K in U9. destruct U9 as [U9 _]. inversion O7 as [p Hp EP]. rewrite <- EP in U9. inversion U9. }
    unfold request_behind in E. rewrite (four_made m u pr d) in E; [|rewrite U1; cbn in O3; intros K; rewrite K in O3; intuition discriminate|exact U4|exact NP].
    assert (LE : length ps = 4%nat) by (rewrite (Permutation_length PP); reflexivity).
    assert (D : distinct_names (four (method_str m) (scheme_str (u_scheme u)) d (u_path u) ++ fs)).
    { apply behind_iff; [apply four_distinct|]. apply (f_equal (@length hfield)) in E. rewrite map_length, app_length, LE, F, map_length in E. exact E. }
    rewrite behind_app in E by (exact D || apply four_distinct). rewrite map_app, four_lower, F in E.
    apply app_inj_length in E; [|rewrite LE; reflexivity]. destruct E as [E _]. rewrite <- E in PP. apply four_values in PP. destruct PP as (_ & _ & PA & PB).
    unfold hr_authority in PA. destruct (text_itself _ _ _ U5 (eq_sym PA)) as (E1 & E2 & E3). destruct (text_itself _ _ _ U9 (eq_sym PB)) as (E4 & E5 & E6).
    rewrite E1 in *. rewrite E2 in *. rewrite E4 in *. rewrite E5 in *. cbn in U10, U8. rewrite <- U1 in *.
    split; [rewrite <- M; exact O1|]. split; [rewrite <- M; exact O2|]. split; [exact O3|]. split; [exact U2|]. split; [exact U3|]. split; [exact U10|].
    split; [rewrite U6, U8; reflexivity|]. split.
    { exists d. split; [exact U4|]. split; [exact O4|]. split; [split; assumption|]. rewrite <- F. unfold hr_authority in O10. rewrite E1, E2, app_nil_r in O10. exact O10. }
    inversion O7 as [p Hp EP]. split; [reflexivity|]. split.
    { constructor; [right; reflexivity|]. apply pct_text_plain; [exact Hp|]. rewrite <- EP in E6. intros K. apply E6. right. exact K. }
    split; [rewrite <- F; exact O9|]. apply (distinct_same_names (four (method_str m) (scheme_str (u_scheme u)) d (u_path u))); [reflexivity|exact D].
  - intros (O1 & O2 & O3 & U2 & U3 & UQ & UP & (d & U4 & O4 & [HF1 HF2] & O10) & P1 & P2 & O9 & D).
    destruct (u_path u) as [|b p] eqn:EP; [discriminate P1|]. cbn in P1. injection P1 as ->.
    pose proof (no_escape _ P2) as NE.
    assert (AP : abs_path (47 :: p)) by (constructor; apply pct_text_all; exact (Forall_inv_tail P2)).
    assert (TP : text_of (47 :: p) (47 :: p)). { apply ascii_text; [|exact NE]. pose proof (target_ascii _ _ AP qt_none) as T. rewrite app_nil_r in T. exact T. }
    assert (TD : text_of d d). { apply ascii_text; [|exact HF2]. pose proof (authority_ascii _ _ HF1 po_none) as T. rewrite app_nil_r in T. exact T. }
    exists (mkH2Request (method_str m) (u_scheme u) d [] (47 :: p) [] (map lower_field fs)), d, (scheme_port (u_scheme u)).
    split.
    { unfold h2_request_ok, hr_authority. cbn [hr_method hr_scheme hr_host hr_port hr_path hr_query hr_fields]. rewrite app_nil_r.
      repeat match goal with |- _ /\ _ => split end; try assumption; constructor. }
    split.
    { unfold h2_request_list, hr_authority. cbn [hr_method hr_scheme hr_host hr_port hr_path hr_query hr_fields]. rewrite !app_nil_r.
      exists (four (method_str m) (scheme_str (u_scheme u)) d (47 :: p)). split; [apply four_perm|].
      unfold request_behind. rewrite (four_made m u pr d); [|intros K; rewrite K in O3; cbn in O3; intuition discriminate|exact U4|rewrite EP; discriminate].
      rewrite EP. rewrite behind_app; [apply map_app| |apply four_distinct].
      eapply distinct_same_names; [|exact D]. reflexivity. }
    split; [reflexivity|]. split; [|reflexivity]. unfold url_meant. cbn [hr_method hr_scheme hr_host hr_port hr_path hr_query hr_fields].
    repeat match goal with |- _ /\ _ => split end; try assumption; try reflexivity.
    + destruct (u_scheme u); reflexivity.
    + rewrite EP. apply abs_path_meant; assumption.
Qed.

(** *** CONNECT and responses *)
Lemma insert_kept h n v : exists h' rest, hm_insert h n v = h' ++ rest /\ map fst h' = map fst h.
Proof.
  induction h as [|[n' v'] h IH]; [exists [], [(n, v)]; auto|]. cbn [hm_insert]. destruct (name_eq n' n).
  - exists ((n', v) :: h), []. rewrite app_nil_r. auto.
  - destruct IH as (h' & rest & -> & E). exists ((n', v') :: h'), rest. cbn. rewrite E. auto.
Qed.
Lemma insert_all_kept fs : forall h, exists h' rest, hm_insert_all h fs = h' ++ rest /\ map fst h' = map fst h.
Proof.
  induction fs as [|f fs IH]; intros h; [exists h, []; rewrite app_nil_r; auto|]. rewrite insert_all_cons.
  destruct (insert_kept h (fst f) (snd f)) as (h1 & r1 & E1 & N1). destruct (IH (hm_insert h (fst f) (snd f))) as (h2 & r2 & -> & N2).
  rewrite E1, map_app in N2. exists (firstn (length h1) h2), (skipn (length h1) h2 ++ r2). rewrite app_assoc, firstn_skipn. split; [reflexivity|].
  rewrite <- firstn_map, N2, <- N1. replace (length h1) with (length (map fst h1)) by apply map_length. rewrite firstn_app, Nat.sub_diag, firstn_all. apply app_nil_r.
Qed.
Lemma parts_made m u pr d : u_domain u = Some d ->
  exists xs, parts_encode_header (parts_request m u pr) [] = (str ":method", method_str m) :: (str ":authority", d) :: xs /\
    Forall (fun f : hfield => hd_error (fst f) = Some 58) xs /\ distinct_names ((str ":method", method_str m) :: (str ":authority", d) :: xs).
Proof.
  intros D. unfold parts_request, parts_encode_header. cbn [pt_method pt_scheme pt_authority pt_path pt_status option_map]. rewrite D.
  set (so := if scheme_eqb (u_scheme u) ScNone then pr else Some (u_scheme u)).
  exists (pseudo_field ":scheme" (option_map scheme_str so) ++ pseudo_field ":path" (match u_path u with [] => None | b :: l => Some (b :: l) end)).
  destruct so as [s|]; destruct (u_path u) as [|b p]; cbn [option_map pseudo_field app].
  all: split; [reflexivity|]; split; [repeat (apply Forall_cons; [reflexivity|]); apply Forall_nil|].
  all: cbn [distinct_names]; repeat match goal with |- _ /\ _ => split end; repeat apply Forall_cons; try apply Forall_nil; try exact Logic.I; vm_compute; reflexivity.
Qed.
Lemma lower_colon n : hd_error (fst (lower_field n)) = Some 58 <-> hd_error (fst n) = Some 58.
Proof.
  destruct n as [[|x n] v]; cbn; [reflexivity|]. unfold S_Huffman.lower_ascii.
  destruct ((65 <=? x) && (x <=? 90)) eqn:E; split; intros K; injection K as K; lia || (rewrite K; reflexivity).
Qed.
Lemma connect_never u pr fs : ~ asks_connect u fs (map lower_field (request_behind MConnect u pr fs)).
Proof.
  intros (h & ds & d & (C1 & C2 & C3 & C4 & C5 & C6) & (ps & PP & E) & T & D).
  destruct (parts_made MConnect u pr d D) as (xs & EX & FX & DX). unfold request_behind in E. rewrite EX in E.
  assert (LE : length ps = 2%nat) by (rewrite (Permutation_length PP); reflexivity).
  destruct xs as [|x xs].
  - assert (DD : distinct_names ([(str ":method", method_str MConnect); (str ":authority", d)] ++ fs)).
    { apply behind_iff; [exact DX|]. apply (f_equal (@length hfield)) in E. rewrite map_length, app_length, LE, map_length in E. exact E. }
    rewrite behind_app in E by assumption. rewrite map_app in E. apply app_inj_length in E; [|transitivity 2%nat; [reflexivity|symmetry; exact LE]]. destruct E as [E _].
    rewrite <- E in PP. assert (K : In (str ":authority", d) [(str ":method", str "CONNECT"); (str ":authority", h ++ 58 :: ds)]).
    { eapply Permutation_in; [exact PP|]. right. left. reflexivity. }
    destruct K as [K|[K|[]]]; [discriminate K|]. injection K as K. destruct (text_itself _ _ _ T K) as [K1 _]. discriminate K1.
  - destruct (insert_all_kept fs ((str ":method", method_str MConnect) :: (str ":authority", d) :: x :: xs)) as (h' & rest & EH & NH). rewrite EH in E.
    destruct h' as [|a [|a2 [|a3 h']]]; try discriminate NH. cbn [map] in NH. injection NH as _ _ NH _.
    destruct ps as [|p1 [|p2 [|p3 ps]]]; try discriminate LE. cbn [app map] in E. injection E as _ _ E. destruct fs as [|f fs]; [discriminate E|]. cbn [map] in E.
    injection E as E1 E2 _. pose proof (Forall_inv C5) as (LT & _). apply lower_head in LT. apply LT.
    apply lower_colon. pose proof (Forall_inv FX) as X. cbn beta in X. rewrite <- NH in X. apply lower_colon in X. cbn [lower_field fst] in X. rewrite E1 in X. apply lower_colon. exact X.
Qed.

Lemma status_made code : parts_encode_header (parts_response code) [] = [(str ":status", status_str code)].
Proof. reflexivity. Qed.
Lemma response_exactly code fs : 100 <= code <= 999 ->
  (answers code fs (map lower_field (response_behind code fs)) <-> Forall h2_field (map lower_field fs) /\ distinct_names ((str ":status", []) :: fs)).
Proof.
  intros C. unfold answers, response_list, response_behind. rewrite status_made, status_str_three by exact C.
  assert (D1 : distinct_names [(str ":status", three_digits code)]) by (split; [constructor|exact Logic.I]).
  split.
  - intros [F E]. split; [exact F|]. apply (distinct_same_names [(str ":status", three_digits code)] [(str ":status", [])]); [reflexivity|].
    apply behind_iff; [exact D1|]. apply (f_equal (@length hfield)) in E. rewrite map_length in E. cbn [length] in *. rewrite map_length in E. exact E.
  - intros [F D]. split; [exact F|]. rewrite behind_app; [reflexivity| |exact D1].
    apply (distinct_same_names [(str ":status", [])]); [reflexivity|exact D].
Qed.

(** *** Onto a map *)
Lemma insert_head f h n v : exists w r, hm_insert (f :: h) n v = (fst f, w) :: r.
Proof. destruct f as [n' v']. cbn [hm_insert]. destruct (name_eq n' n); eauto. Qed.
Lemma opt_insert_head f h n o : exists w r, opt_insert (f :: h) n o = (fst f, w) :: r.
Proof. destruct o as [v|]; [apply insert_head|]. exists (snd f), h. cbn. rewrite <- surjective_pairing. reflexivity. Qed.
Lemma encode_head f h p : exists w r, parts_encode_header p (f :: h) = (fst f, w) :: r.
Proof.
  unfold parts_encode_header.
  destruct (opt_insert_head f h ":method" (option_map method_str (pt_method p))) as (w1 & r1 & ->).
  destruct (opt_insert_head (fst f, w1) r1 ":authority" (pt_authority p)) as (w2 & r2 & ->).
  destruct (opt_insert_head (fst (fst f, w1), w2) r2 ":scheme" (option_map scheme_str (pt_scheme p))) as (w3 & r3 & ->).
  destruct (opt_insert_head (fst (fst (fst f, w1), w2), w3) r3 ":path" (pt_path p)) as (w4 & r4 & ->).
  exact (opt_insert_head (fst f, w4) r4 ":status" (option_map status_str (pt_status p))).
Qed.
Lemma onto_malformed m u pr (f : bytes * bytes) (fs : headers) : hd_error (fst f) <> Some 58 -> malformed (map lower_field (request_onto m u pr (f :: fs))).
Proof.
  intros H. unfold request_onto. destruct (encode_head f fs (parts_request m u pr)) as (w & r & E). unfold headers in *. rewrite E. clear E. cbn [map].
  assert (X : {In (str ":method") (map fst (map lower_field r))} + {~ In (str ":method") (map fst (map lower_field r))}) by (apply in_dec, list_eq_dec, N.eq_dec).
  assert (H' : hd_error (fst (lower_field (fst f, w))) <> Some 58) by (intros K; apply (proj1 (lower_colon (fst f, w))) in K; exact (H K)).
  destruct X as [X|X].
  - apply in_map_iff in X. destruct X as (g & G & I). apply in_split in I. destruct I as (b & c & E). rewrite E.
    apply (mf_late _ [] (lower_field (fst f, w)) b g c); [reflexivity|exact H'|rewrite G; reflexivity].
  - apply mf_no_method. cbn [map]. intros [K|K]; [|exact (X K)]. apply H'. rewrite K. reflexivity.
Qed.
Lemma response_onto_bad code (f : bytes * bytes) (fs : headers) c hs : hd_error (fst f) <> Some 58 -> ~ response_list c hs (map lower_field (response_onto code (f :: fs))).
Proof.
  intros H. unfold response_onto, response_list. destruct (encode_head f fs (parts_response code)) as (w & r & E). unfold headers in *. rewrite E. clear E. cbn [map]. intros E. injection E as E _ _.
  apply H, (lower_colon (fst f, w)). cbn [lower_field fst]. rewrite E. reflexivity.
Qed.

(** *** On the wire *)
Lemma lower_idem f : lower_field (lower_field f) = lower_field f.
Proof.
  unfold lower_field. cbn [fst snd]. f_equal. rewrite map_map. apply map_ext. intros x. unfold S_Huffman.lower_ascii.
  destruct ((65 <=? x) && (x <=? 90)) eqn:E; [|rewrite E; reflexivity]. replace ((65 <=? x + 32) && (x + 32 <=? 90)) with false; [reflexivity|]. lia.
Qed.
Lemma lower_all l : Forall (fun f => lower_field f = f) l -> map lower_field l = l.
Proof. induction 1 as [|f l H _ IH]; [reflexivity|]. cbn. rewrite H, IH. reflexivity. Qed.
Lemma padded_one fl p a b : rfc_padded fl p a -> rfc_padded fl p b -> a = b.
Proof.
  intros [q N|n d F L] B.
  - inversion B; subst; [reflexivity|contradiction].
  - remember (n :: d ++ repeat 0 (N.to_nat n)) as q eqn:Q. destruct B as [q N|n2 d2 F2 L2]; [contradiction|]. injection Q as -> Q.
    apply (f_equal (@length N)) in Q as LE. rewrite !app_length in LE. apply app_inj_length in Q; [symmetry; apply Q|lia].
Qed.
Lemma told_once room max peer id F l fl fl' b p1 p2 : room < 16777216 ->
  conforms room max peer (FHeaders (mkHeaders id None F parts_default fl)) b p1 ->
  conforms room max peer (FHeaders (mkHeaders id None l parts_default fl')) b p2 ->
  map lower_field F = map lower_field l /\ p1 = p2 /\ (flag_on fl 0 <-> flag_on fl' 0).
Proof.
  intros R (f1 & E1 & T1 & S1) (f2 & E2 & T2 & S2).
  assert (K : forall fs, Forall (sent_fine room) fs -> Forall sent_typed fs) by (intros fs H; eapply Forall_impl; [|exact H]; intros s; apply fine_typed, R).
  assert (E : f1 = f2) by (apply sent_all; [apply K, T1|apply K, T2|congruence]). subst f2. clear E1 E2 T1 T2 K.
  inversion S1 as [|h1 g1 q1 b1 t1 ps1 r1 A1 A2 A3 A4 A5 A6 EA EB| |? ? ? ? ? _ RF]; subst; [|inversion RF].
  match type of S2 with rfc_sent _ _ _ ?x _ => remember x as gs eqn:ED end.
  inversion S2 as [|h2 g2 q2 b2 t2 ps2 r2 B1 B2 B3 B4 B5 B6 EC ED'| |? ? ? ? ? _ RF]; [|inversion RF]. subst h2 r2. rewrite <- ED' in ED. clear ED' S2 S1. cbn [hf_id hf_dep hf_fields hf_parts hf_flags] in *.
  change (parts_fields parts_default) with (@nil hfield) in *. apply Permutation_sym, Permutation_nil in A5. apply Permutation_sym, Permutation_nil in B5. subst ps1 ps2.
  injection ED as -> -> ED.
  assert (TS : map snd t1 = map snd t2).
  { apply (f_equal (map (fun s : sent => snd s))) in ED. rewrite !map_map in ED. cbn [snd] in ED. exact (eq_sym ED). }
  assert (EQ : b1 = b2). { inversion A2; subst; inversion B2; subst. eapply padded_one; eassumption. }
  subst b2. rewrite TS in A6. destruct (block_one _ _ _ _ _ A6 _ _ B6) as [E ->]. cbn [app] in E. split; [exact E|]. split; [reflexivity|]. rewrite <- A3, <- B3. reflexivity.
Qed.
Lemma conforms_lower room max peer id F fl b p : conforms room max peer (FHeaders (mkHeaders id None F parts_default fl)) b p ->
  conforms room max peer (FHeaders (mkHeaders id None (map lower_field F) parts_default fl)) b p.
Proof.
  intros (fs & E & T & S). exists fs. split; [exact E|]. split; [exact T|].
  inversion S as [|h1 g1 q1 b1 t1 ps1 r1 A1 A2 A3 A4 A5 A6| |? ? ? ? ? _ RF]; subst; [|inversion RF].
  apply (rs_headers max peer (mkHeaders id None (map lower_field F) parts_default fl) g1 q1 b1 t1 ps1 p); try assumption.
  cbn [hf_fields] in *. rewrite map_map, (map_ext _ _ lower_idem). exact A6.
Qed.
Lemma told_exactly room max dyn id F fl t b peer' (Q : list hfield -> Prop) : room < 16777216 -> table_typed max dyn ->
  frame_typed (FHeaders (mkHeaders id None F parts_default fl)) ->
  frame_encode room (table_of max dyn) (FHeaders (mkHeaders id None F parts_default fl)) = Ok (t, b) ->
  frame_plain (FHeaders (mkHeaders id None F parts_default fl)) b ->
  frame_fine room max dyn (FHeaders (mkHeaders id None F parts_default fl)) ->
  (told room max (map lower_field dyn) id (flag_on fl 0) Q b peer' <-> Q (map lower_field F) /\ peer' = map lower_field (hi_to_vec t)).
Proof.
  intros R TT T E P FF.
  assert (C : conforms room max (map lower_field dyn) (FHeaders (mkHeaders id None F parts_default fl)) b (map lower_field (hi_to_vec t))).
  { apply (written_conforms room max dyn _ t b _ R TT T E P). split; [exact FF|]. split; [|reflexivity].
    pose proof (frame_all room max dyn _ t b TT T) as W. apply W in E. destruct E as (d' & -> & _). reflexivity. }
  split.
  - intros (l & fl' & L0 & LL & HQ & C'). destruct (told_once _ _ _ _ _ _ _ _ _ _ _ R C C') as (E1 & E2 & _).
    rewrite (lower_all l LL) in E1. rewrite E1, E2. auto.
  - intros [HQ ->]. exists (map lower_field F), fl. split; [reflexivity|]. split.
    { apply Forall_forall. intros f I. apply in_map_iff in I. destruct I as (g & <- & _). apply lower_idem. }
    split; [exact HQ|apply conforms_lower, C].
Qed.
