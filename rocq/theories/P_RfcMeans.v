(** Lemmas about the messages of RFC 9113 section 8.3 (for T_RfcMeans). *)
From Coq Require Import Ascii String NArith ZArith Lia Bool List ZifyBool ZifyNat ZifyN Permutation.
From Verif Require Import Base S_Utf8 P_Base S_HpackAll M_Header M_Url M_Http1 S_Http1Api S_Url M_Std M_Hpack S_Hpack M_Frame M_H2 S_Frame S_H2Api S_Build S_FrameAll
  P_Header P_Map P_Msg P_More P_Lossy P_Http1 P_Helper P_HpackTable P_HpackSync P_HpackExact S_HpackApi P_FrameAll S_Rfc9112 P_Rfc9112 S_Rfc9113 P_Rfc9113 S_RfcMeans S_Http1.
Import ListNotations.
Local Open Scope N_scope.

(** ** The host field *)
Lemma lower_tchars n : lower_token n -> Forall (fun b => tchar b /\ ~ upper b) n.
Proof. intros [_ F]. exact F. Qed.
Lemma tok_bytes n : Forall (fun b => tchar b /\ ~ upper b) n -> bytes_ok n.
Proof. apply Forall_impl. intros b [T _]. apply tchar_not in T. unfold byte_ok. lia. Qed.
Lemma ic_lower c x : 97 <= c <= 122 -> tchar x -> ~ upper x -> (c = x \/ (c + 32) mod 256 = x \/ (x + 32) mod 256 = c) -> x = c.
Proof.
  intros C T U. apply tchar_not in T as R. unfold upper in U. unfold tchar in T. rewrite !N.mod_small by lia.
  unfold alpha, digit, upper, lower in T. cbn in T. lia.
Qed.
Lemma ic_H x : tchar x -> ~ upper x -> (72 = x \/ (72 + 32) mod 256 = x \/ (x + 32) mod 256 = 72) -> x = 104.
Proof.
  intros T U. apply tchar_not in T as R. unfold upper in U. unfold tchar in T. rewrite !N.mod_small by lia.
  unfold alpha, digit, upper, lower in T. cbn in T. lia.
Qed.
Lemma ic_swap x y : (x = y \/ (x + 32) mod 256 = y \/ (y + 32) mod 256 = x) -> (y = x \/ (y + 32) mod 256 = x \/ (x + 32) mod 256 = y).
Proof. intuition. Qed.
Definition same_ic (x y : N) : Prop := x = y \/ (x + 32) mod 256 = y \/ (y + 32) mod 256 = x.
Lemma ost n : Forall (fun b => tchar b /\ ~ upper b) n -> Forall2 same_ic (str "ost") n -> n = str "ost".
Proof.
  intros F H. change (str "ost") with [111; 115; 116] in *.
  inversion H as [|? x1 ? l1 H1 T1]; subst. inversion T1 as [|? x2 ? l2 H2 T2]; subst. inversion T2 as [|? x3 ? l3 H3 T3]; subst. inversion T3; subst.
  inversion F as [|? ? [A1 B1] F1]; subst. inversion F1 as [|? ? [A2 B2] F2]; subst. inversion F2 as [|? ? [A3 B3] _]; subst.
  apply ic_lower in H1; [|lia|assumption..]. apply ic_lower in H2; [|lia|assumption..]. apply ic_lower in H3; [|lia|assumption..]. subst. reflexivity.
Qed.
Lemma host_eq n : lower_token n -> name_eq (str "host") n = beq n (str "host").
Proof.
  intros L. apply lower_tchars in L. destruct (beq n (str "host")) eqn:E.
  - apply beq_eq in E. subst n. apply name_eq_refl.
  - destruct (name_eq (str "host") n) eqn:K; [|reflexivity]. apply name_eq_iff in K; [|apply bytes_okb_ok; reflexivity|apply tok_bytes, L].
    change (str "host") with (104 :: str "ost") in K. inversion K as [|? x ? l H T]; subst. inversion L as [|? ? [A B] F]; subst.
    apply ic_lower in H; [|lia|assumption..]. subst x. apply ost in T; [|exact F]. subst l. discriminate E.
Qed.
Lemma Host_eq n : lower_token n -> name_eq (str "Host") n = beq n (str "host").
Proof.
  intros L. apply lower_tchars in L. destruct (beq n (str "host")) eqn:E.
  - apply beq_eq in E. subst n. reflexivity.
  - destruct (name_eq (str "Host") n) eqn:K; [|reflexivity]. apply name_eq_iff in K; [|apply bytes_okb_ok; reflexivity|apply tok_bytes, L].
    change (str "Host") with (72 :: str "ost") in K. inversion K as [|? x ? l H T]; subst. inversion L as [|? ? [A B] F]; subst.
    apply ic_H in H; [|assumption..]. subst x. apply ost in T; [|exact F]. subst l. discriminate E.
Qed.
Lemma eq_host n : lower_token n -> name_eq n (str "host") = beq n (str "host").
Proof.
  intros L. rewrite <- host_eq by exact L. apply name_eq_sym; [apply tok_bytes, lower_tchars, L|].
  apply bytes_okb_ok; reflexivity.
Qed.

Definition lower_names (fs : list hfield) : Prop := Forall (fun f => lower_token (fst f)) fs.
Definition last_host (x : bytes) (fs : list hfield) : bytes := fold_left (fun x f => if is_host f then snd f else x) fs x.
Lemma host_first fs : forall x acc, lower_names fs ->
  hm_insert_all ((str "Host", x) :: acc) fs = (str "Host", last_host x fs) :: hm_insert_all acc (others fs).
Proof.
  induction fs as [|[n v] fs IH]; intros x acc F; [reflexivity|].
  pose proof (Forall_inv F) as L. pose proof (Forall_inv_tail F) as F'. cbn [fst] in L.
  unfold hm_insert_all, last_host, others. cbn [fold_left filter fst snd]. change (is_host (n, v)) with (beq n (str "host")). cbn [hm_insert]. rewrite (Host_eq n L).
  destruct (beq n (str "host")); cbn [negb]; [apply (IH v acc F')|].
  cbn [fold_left fst snd]. apply (IH x (hm_insert acc n v) F').
Qed.
Lemma others_one h n v : lower_names h -> lower_token n ->
  others (hm_insert h n v) = if beq n (str "host") then others h else hm_insert (others h) n v.
Proof.
  intros H L. induction h as [|[m w] h IH]; unfold others; cbn [hm_insert filter].
  - unfold is_host. cbn [fst]. destruct (beq n (str "host")); reflexivity.
  - pose proof (Forall_inv H) as Lm. cbn [fst] in Lm. specialize (IH (Forall_inv_tail H)). unfold others in IH.
    destruct (name_eq m n) eqn:E; cbn [filter]; change (is_host (m, v)) with (beq m (str "host")); change (is_host (m, w)) with (beq m (str "host")).
    + assert (beq n (str "host") = beq m (str "host")) as ->.
      { destruct (beq n (str "host")) eqn:K; [apply beq_eq in K; subst n; rewrite eq_host in E by exact Lm; symmetry; exact E|].
        destruct (beq m (str "host")) eqn:K2; [|reflexivity]. apply beq_eq in K2. subst m. rewrite host_eq in E by exact L. congruence. }
      destruct (beq m (str "host")); cbn [negb]; [reflexivity|]. cbn [hm_insert]. rewrite E. reflexivity.
    + destruct (beq m (str "host")); cbn [negb]; rewrite IH; destruct (beq n (str "host")); try reflexivity.
      cbn [hm_insert]. rewrite E. reflexivity.
Qed.

Lemma insert_lower h n v : lower_names h -> lower_token n -> lower_names (hm_insert h n v).
Proof.
  intros H L. induction h as [|[m w] h IH]; cbn [hm_insert]; [constructor; [exact L|constructor]|].
  destruct (name_eq m n); constructor; try exact (Forall_inv H); try exact (Forall_inv_tail H). exact (IH (Forall_inv_tail H)).
Qed.
Lemma insert_all_lower fs : forall h, lower_names h -> lower_names fs -> lower_names (hm_insert_all h fs).
Proof.
  induction fs as [|[n v] fs IH]; intros h H F; [exact H|]. apply (IH (hm_insert h n v)); [|exact (Forall_inv_tail F)].
  apply insert_lower; [exact H|exact (Forall_inv F)].
Qed.
Lemma others_all fs : forall h, lower_names h -> lower_names fs -> others (hm_insert_all h fs) = hm_insert_all (others h) (others fs).
Proof.
  induction fs as [|[n v] fs IH]; intros h H F; [reflexivity|]. pose proof (Forall_inv F) as L. cbn [fst] in L.
  change (hm_insert_all h ((n, v) :: fs)) with (hm_insert_all (hm_insert h n v) fs).
  rewrite IH; [|apply insert_lower; assumption|exact (Forall_inv_tail F)]. rewrite others_one by assumption.
  change (others ((n, v) :: fs)) with (if negb (beq n (str "host")) then (n, v) :: others fs else others fs). destruct (beq n (str "host")); reflexivity.
Qed.
Lemma last_host_same a fs : forall x, Forall (same_host a) fs -> last_host x fs = if existsb is_host fs then a else x.
Proof.
  unfold last_host. induction fs as [|[n v] fs IH]; intros x F; [reflexivity|]. cbn [fold_left existsb]. rewrite IH by exact (Forall_inv_tail F).
  pose proof (Forall_inv F) as K. unfold same_host in K. cbn [fst snd] in *. change (is_host (n, v)) with (beq n (str "host")).
  destruct (beq n (str "host")) eqn:E; cbn [orb]; [|reflexivity]. apply beq_eq in E. rewrite (K E). destruct (existsb is_host fs); reflexivity.
Qed.
Lemma insert_same_host a h n v : lower_names h -> lower_token n -> Forall (same_host a) h -> same_host a (n, v) -> Forall (same_host a) (hm_insert h n v).
Proof.
  intros H L F S. induction h as [|[m w] h IH]; cbn [hm_insert]; [constructor; [exact S|constructor]|].
  destruct (name_eq m n) eqn:E.
  - constructor; [|exact (Forall_inv_tail F)]. unfold same_host. cbn [fst snd]. intros ->. rewrite host_eq in E by exact L. apply beq_eq in E. apply S. exact E.
  - constructor; [exact (Forall_inv F)|]. apply IH; [exact (Forall_inv_tail H)|exact (Forall_inv_tail F)].
Qed.
Lemma insert_has_host h n v : lower_names h -> lower_token n -> existsb is_host (hm_insert h n v) = existsb is_host h || is_host (n, v).
Proof.
  intros H L. induction h as [|[m w] h IH]; cbn [hm_insert existsb]; [rewrite orb_false_r; reflexivity|].
  destruct (name_eq m n) eqn:E; cbn [existsb]; [|rewrite IH by exact (Forall_inv_tail H); apply orb_assoc].
  change (is_host (m, v)) with (is_host (m, w)). destruct (is_host (n, v)) eqn:K; [|rewrite orb_false_r; reflexivity].
  unfold is_host in K. cbn [fst] in K. apply beq_eq in K. subst n. rewrite eq_host in E by exact (Forall_inv H).
  change (is_host (m, w)) with (beq m (str "host")). rewrite E. rewrite orb_true_r. reflexivity.
Qed.
Lemma all_host a fs : forall h, lower_names h -> lower_names fs -> Forall (same_host a) h -> Forall (same_host a) fs ->
  Forall (same_host a) (hm_insert_all h fs) /\ existsb is_host (hm_insert_all h fs) = existsb is_host h || existsb is_host fs.
Proof.
  induction fs as [|[n v] fs IH]; intros h H F S T; [cbn; rewrite orb_false_r; auto|].
  change (hm_insert_all h ((n, v) :: fs)) with (hm_insert_all (hm_insert h n v) fs). pose proof (Forall_inv F) as L. cbn [fst] in L.
  destruct (IH (hm_insert h n v)) as [I1 I2].
  - apply insert_lower; assumption.
  - exact (Forall_inv_tail F).
  - apply insert_same_host; [assumption..|exact (Forall_inv T)].
  - exact (Forall_inv_tail T).
  - split; [exact I1|]. rewrite I2, insert_has_host by assumption. cbn [existsb]. symmetry. apply orb_assoc.
Qed.
(** The fields of the request that is built. *)
Lemma request_header a x fs : lower_names fs -> Forall (same_host a) fs ->
  hm_insert_all [(str "Host", x)] (hm_insert_all [] fs) =
  (str "Host", if existsb is_host fs then a else x) :: hm_insert_all [] (others fs).
Proof.
  intros F S. assert (N : lower_names []) by constructor. rewrite host_first by (apply insert_all_lower; assumption).
  destruct (all_host a fs [] N F (Forall_nil _) S) as [S' E]. cbn [existsb orb] in E.
  rewrite (last_host_same a) by exact S'.
  match goal with |- (_, if ?b then _ else _) :: _ = _ => replace b with (existsb is_host fs) by (symmetry; exact E) end. f_equal. rewrite others_all by assumption. change (others []) with (@nil hfield).
  symmetry. apply insert_all_same. rewrite insert_all_fields. apply distinct_add. exact I.
Qed.

(** ** The lists *)
Lemma read_ok {A} L fh fs (k : headersf -> res A) a : read_with L fh fs k = Ok a <->
  total_size fs <= L /\ exists hs p, header_list fs hs p /\ k (mkHeaders (fh_id fh) None hs p (fh_flag fh)) = Ok a.
Proof.
  unfold read_with. pose proof (hdr_collect_ok L (headers_new fh []) fs) as C. pose proof (header_list_iff fh None fs) as H.
  destruct (hdr_collect L 0 (headers_new fh []) fs) as [h r] eqn:E. split.
  - intros K. destruct r as [[]|e| |]; try discriminate K. destruct (proj1 (C h) eq_refl) as [T D]. split; [exact T|].
    apply H in D as (hs & p & D & ->). eauto.
  - intros (T & hs & p & D & K). assert (Z : (h, r) = (mkHeaders (fh_id fh) None hs p (fh_flag fh), Ok tt)).
    { apply C. split; [exact T|]. apply H. eauto. }
    injection Z as -> ->. exact K.
Qed.
Lemma value_absent n (ps : list hfield) : ~ In (str n) (map fst ps) -> value_of n ps = None.
Proof.
  intros H. unfold value_of. rewrite find_absent; [reflexivity|]. apply Forall_forall. intros [m v] I. apply beq_false. cbn. intros ->.
  apply H. change (str n) with (fst (str n, v)). apply List.in_map. exact I.
Qed.
Lemma ascii_lossy v s : Forall (fun b => b < 128) v -> (lossy v s <-> s = v).
Proof.
  intros F. rewrite lossy_iff. assert (U : utf8_lossy v = v) by (apply lossy_same, utf8_valid_iff, utf8_valid_ascii, F). rewrite U. split; congruence.
Qed.
Lemma token_fine (hs : list hfield) : lower_names hs -> Forall field_fine hs.
Proof.
  apply Forall_impl. intros [n v] T. cbn [fst] in T. apply token_not_pseudo in T.
  repeat split; cbn [fst]; intros ->; destruct T; cbn; auto 7.
Qed.

Lemma list_parts (ps hs hs' : list hfield) p : Forall (fun f : hfield => In (fst f) pseudo_names) ps -> NoDup (map fst ps) -> lower_names hs ->
  (header_list (ps ++ hs) hs' p <-> Forall field_fine ps /\
    part_meant lossy ":authority" ps (pt_authority p) /\ part_meant method_value ":method" ps (pt_method p) /\
    part_meant lossy ":path" ps (pt_path p) /\ part_meant scheme_value ":scheme" ps (pt_scheme p) /\
    part_meant status_value ":status" ps (pt_status p) /\ hs' = hm_insert_all [] hs).
Proof.
  intros P D T. unfold header_list. rewrite other_fields by assumption.
  assert (LV : forall n, In (str n) pseudo_names -> last_value n (ps ++ hs) = value_of n ps) by (intros n Hn; apply last_value_of; assumption).
  unfold read_last, part_meant. rewrite !LV by (cbn; auto 7). rewrite Forall_app. pose proof (token_fine hs T). tauto.
Qed.
Lemma perm_names (ps qs : list hfield) : Permutation ps qs -> NoDup (map fst qs) -> NoDup (map fst ps).
Proof. intros P D. eapply Permutation_NoDup; [|exact D]. apply Permutation_map, Permutation_sym, P. Qed.
Lemma perm_pseudo (ps qs : list hfield) : Permutation ps qs -> Forall (fun f : hfield => In (fst f) pseudo_names) qs ->
  Forall (fun f : hfield => In (fst f) pseudo_names) ps.
Proof. intros P F. rewrite Forall_forall in *. intros x I. apply F. eapply Permutation_in; eassumption. Qed.
Lemma perm_value n (ps qs : list hfield) v : Permutation ps qs -> NoDup (map fst qs) -> In (str n, v) qs -> value_of n ps = Some v.
Proof. intros P D I. apply value_of_in; [exact (perm_names _ _ P D)|]. eapply Permutation_in; [apply Permutation_sym; exact P|exact I]. Qed.
Lemma perm_absent n (ps qs : list hfield) : Permutation ps qs -> ~ In (str n) (map fst qs) -> value_of n ps = None.
Proof. intros P H. apply value_absent. intros K. apply H. eapply Permutation_in; [apply Permutation_map; exact P|exact K]. Qed.

Lemma pseudo_request_names m s a p : NoDup (map fst (pseudo_request m s a p)) /\ Forall (fun f : hfield => In (fst f) pseudo_names) (pseudo_request m s a p).
Proof.
  split; [|repeat (apply Forall_cons; [cbn; auto 7|]); apply Forall_nil].
  cbn. repeat (apply NoDup_cons; [cbn; intuition discriminate|]). apply NoDup_nil.
Qed.
Lemma http_scheme s c : In s [ScHttp; ScHttps] -> (scheme_value (scheme_str s) c <-> c = s).
Proof.
  intros H. assert (A : Forall (fun b => b < 128) (scheme_str s)) by (destruct H as [<-|[<-|[]]]; cbn; repeat constructor; lia).
  unfold scheme_value. split.
  - intros (x & X & _ & ->). apply ascii_lossy in X; [|exact A]. subst x. destruct H as [<-|[<-|[]]]; reflexivity.
  - intros ->. exists (scheme_str s). split; [apply ascii_lossy; [exact A|reflexivity]|]. destruct H as [<-|[<-|[]]]; split; try reflexivity; cbv; discriminate.
Qed.
Lemma list_request ps hs m s a pq hs' p : Permutation ps (pseudo_request m (scheme_str s) a pq) -> lower_names hs -> In s [ScHttp; ScHttps] ->
  Forall (fun b => b < 128) a -> Forall (fun b => b < 128) pq ->
  (header_list (ps ++ hs) hs' p <->
   exists mm, method_value m mm /\ p = mkParts (Some mm) (Some s) (Some a) (Some pq) None /\ hs' = hm_insert_all [] hs).
Proof.
  intros P T S A Q. destruct (pseudo_request_names m (scheme_str s) a pq) as [D F].
  rewrite (list_parts ps hs hs' p) by (first [exact T|eapply perm_pseudo; eassumption|eapply perm_names; eassumption]).
  unfold part_meant. rewrite (perm_value ":authority" _ _ a P D), (perm_value ":method" _ _ m P D), (perm_value ":path" _ _ pq P D),
    (perm_value ":scheme" _ _ (scheme_str s) P D), (perm_absent ":status" _ _ P) by (cbn; auto 7; intuition discriminate).
  split.
  - intros (_ & (a' & A1 & A2) & (mm & M1 & M2) & (p' & P1 & P2) & (c & S1 & S2) & St & H). exists mm. split; [exact M1|]. split; [|exact H].
    apply ascii_lossy in A1; [|exact A]. apply ascii_lossy in P1; [|exact Q]. apply http_scheme in S1; [|exact S].
    destruct p as [x1 x2 x3 x4 x5]. cbn in *. subst. reflexivity.
  - intros (mm & M & -> & ->). cbn [pt_authority pt_method pt_path pt_scheme pt_status].
    repeat match goal with |- _ /\ _ => split end; try reflexivity.
    + apply Forall_forall. intros f I. eapply Permutation_in in I; [|exact P]. unfold pseudo_request in I. cbn [In] in I.
      destruct I as [<-|[<-|[<-|[<-|[]]]]]; repeat split; cbn [fst snd]; try discriminate; intros _; eauto.
      exists s. apply http_scheme; [exact S|reflexivity].
    + exists a. split; [apply ascii_lossy; [exact A|reflexivity]|reflexivity].
    + exists mm. auto.
    + exists pq. split; [apply ascii_lossy; [exact Q|reflexivity]|reflexivity].
    + exists s. split; [apply http_scheme; [exact S|reflexivity]|reflexivity].
Qed.
Lemma list_connect ps hs a hs' p : Permutation ps [(str ":method", str "CONNECT"); (str ":authority", a)] -> lower_names hs ->
  Forall (fun b => b < 128) a ->
  (header_list (ps ++ hs) hs' p <-> p = mkParts (Some MConnect) None (Some a) None None /\ hs' = hm_insert_all [] hs).
Proof.
  intros P T A.
  assert (D : NoDup (map fst [(str ":method", str "CONNECT"); (str ":authority", a)])) by (cbn; repeat (apply NoDup_cons; [cbn; intuition discriminate|]); apply NoDup_nil).
  assert (F : Forall (fun f : hfield => In (fst f) pseudo_names) [(str ":method", str "CONNECT"); (str ":authority", a)]) by (repeat (apply Forall_cons; [cbn; auto 7|]); apply Forall_nil).
  assert (MC : method_value (str "CONNECT") MConnect) by (exists "CONNECT"%string; split; [cbn; auto 20|reflexivity]).
  rewrite (list_parts ps hs hs' p) by (first [exact T|eapply perm_pseudo; eassumption|eapply perm_names; eassumption]).
  unfold part_meant. rewrite (perm_value ":authority" _ _ a P D), (perm_value ":method" _ _ (str "CONNECT") P D), (perm_absent ":path" _ _ P),
    (perm_absent ":scheme" _ _ P), (perm_absent ":status" _ _ P) by (cbn; auto 7; intuition discriminate).
  split.
  - intros (_ & (a' & A1 & A2) & (mm & (x & M1 & M3) & M2) & P2 & S2 & St & H). split; [|exact H].
    apply ascii_lossy in A1; [|exact A]. destruct p as [x1 x2 x3 x4 x5]. cbn in A2, M2, P2, S2, St. subst.
    cbn in M1. repeat (destruct M1 as [M1|M1]; [injection M1 as <- <-; try discriminate M3; reflexivity|]). destruct M1.
  - intros (-> & ->). cbn [pt_authority pt_method pt_path pt_scheme pt_status].
    repeat match goal with |- _ /\ _ => split end; try reflexivity.
    + apply Forall_forall. intros f I. eapply Permutation_in in I; [|exact P]. cbn [In] in I.
      destruct I as [<-|[<-|[]]]; repeat split; cbn [fst snd]; try discriminate; intros _; eauto.
    + exists a. split; [apply ascii_lossy; [exact A|reflexivity]|reflexivity].
    + exists MConnect. auto.
Qed.
Lemma list_response hs code hs' p : lower_names hs -> code < 1000 ->
  (header_list ((str ":status", three_digits code) :: hs) hs' p <->
   100 <= code /\ p = mkParts None None None None (Some code) /\ hs' = hm_insert_all [] hs).
Proof.
  intros T C. change ((str ":status", three_digits code) :: hs) with ([(str ":status", three_digits code)] ++ hs).
  rewrite (list_parts [(str ":status", three_digits code)] hs hs' p).
  - unfold part_meant. rewrite !value_absent by (cbn; intuition discriminate).
    replace (value_of ":status" [(str ":status", three_digits code)]) with (Some (three_digits code)) by reflexivity. split.
    + intros (_ & A & M & P & S & (c & St & E) & H). assert (c = code) as ->. { destruct St as [R V]. apply three_digits_same; [lia..|]. symmetry. exact V. }
      split; [destruct St; lia|]. split; [|exact H]. destruct p as [x1 x2 x3 x4 x5]. cbn in *. subst. reflexivity.
    + intros (R & -> & ->). repeat match goal with |- _ /\ _ => split end; try reflexivity.
      * constructor; [|constructor]. repeat split; cbn [fst snd]; try discriminate. intros _. exists code. split; [lia|reflexivity].
      * exists code. split; [split; [lia|reflexivity]|reflexivity].
  - constructor; [cbn; auto 7|constructor].
  - constructor; [intros []|constructor].
  - exact T.
Qed.

(** ** Requests *)
Lemma vchar_ascii l : Forall vchar l -> Forall (fun b => b < 128) l.
Proof. apply Forall_impl. unfold vchar. intros; lia. Qed.
Lemma authority_ascii h po : uri_host h -> port_opt po -> Forall (fun b => b < 128) (h ++ po).
Proof. intros H P. apply vchar_ascii, Forall_app. split; [apply host_vchar, H|apply port_vchar, P]. Qed.
Lemma target_ascii p q : abs_path p -> query_text q -> Forall (fun b => b < 128) (p ++ q).
Proof. intros H P. apply vchar_ascii, Forall_app. split; [apply abs_path_vchar, H|apply query_vchar, P]. Qed.
Lemma abs_path_meant p s : abs_path p -> (path_meant p s <-> text_of p s).
Proof. intros [t _]. unfold path_meant. rewrite blen_cons. replace (1 + blen t =? 0) with false by lia. reflexivity. Qed.
Lemma built h u mm q : parts_build_url (hf_parts h) = Ok u -> pt_method (hf_parts h) = Some mm ->
  headers_into_request h req_default = Ok q -> q_url q = u /\ q_method q = mm /\
  forall d n, u_domain u = Some d -> u_port u = Some n -> q_header q = hm_insert_all [(str "Host", d ++ 58 :: dec_print n)] (hf_fields h).
Proof.
  intros U M. unfold headers_into_request. rewrite U, M. cbn [bind]. intros [= <-]. unfold url_connect.
  destruct (u_domain u) as [d|], (u_port u) as [n|]; cbn [req_set_header req_set_url req_set_method q_header q_version q_method q_url q_partial req_default hm_insert];
    (split; [reflexivity|]; split; [reflexivity|]); intros d' n' Ed En; try discriminate. injection Ed as <-. injection En as <-. reflexivity.
Qed.
Lemma into_built h q q' : headers_into_request h q = Ok q' -> exists u, parts_build_url (hf_parts h) = Ok u.
Proof. unfold headers_into_request. destruct (parts_build_url (hf_parts h)) as [u| | |]; intros E; [eauto|discriminate E..]. Qed.
Lemma build_ok h u mm : parts_build_url (hf_parts h) = Ok u -> pt_method (hf_parts h) = Some mm -> exists q, headers_into_request h req_default = Ok q.
Proof. intros U M. unfold headers_into_request. rewrite U. cbn [bind]. eauto. Qed.
(** The URL of the pseudo headers. *)
Lemma url_exact s h po p q u : In s [ScHttp; ScHttps] -> uri_host h -> port_opt po -> abs_path p -> query_text q ->
  ((url_parse (scheme_str s ++ str "://" ++ (h ++ po) ++ p ++ q) = Ok u /\ exists d n, url_meant s h po p q u d n) <->
   target_readable h po p q /\ exists d n, url_meant s h po p q u d n).
Proof.
  intros S H O P Q. rewrite <- (app_assoc h po). split.
  - intros (U & d & n & M). split; [|eauto]. pose proof M as (M1 & M2 & M3 & M4 & M5 & M6 & M7 & M8 & M9 & M10).
    apply (absolute_url s (scheme_port s) h po p q u d n) in U; try assumption; [|destruct S as [<-|[<-|[]]]; auto|auto].
    destruct U as (C1 & C2 & C3 & _). apply (abs_path_meant p) in M9; [|exact P].
    split; [eexists; exact M5|]. split; [eexists; exact M9|]. split; [|split; [exact C1|split; [|exact C3]]].
    + intros y ->. cbn in M10. destruct M10 as (z & Z & _). eexists. exact Z.
    + destruct O as [|ds F]; [left; reflexivity|right]. exists ds. split; [reflexivity|]. destruct ds as [|x ds]; [contradiction|].
      split; [discriminate|]. cbn in M8. subst n. exact M7.
  - intros ((T1 & T2 & T3 & C1 & C2 & C3) & d & n & M). split; [|eauto]. pose proof M as (M1 & M2 & M3 & M4 & M5 & M6 & M7 & M8 & M9 & M10).
    apply (absolute_url s (scheme_port s) h po p q u d n); try assumption; [destruct S as [<-|[<-|[]]]; auto|auto|].
    split; [exact C1|]. split; [|split; [exact C3|intros ->; inversion P]].
    intros ->. destruct C2 as [C2|(ds & [= <-] & C2 & _)]; [discriminate C2|congruence].
Qed.
Lemma url_there s h po p q : In s [ScHttp; ScHttps] -> abs_path p -> query_text q -> port_opt po -> target_readable h po p q -> exists u d n, url_meant s h po p q u d n.
Proof.
  intros S P Q O ((d & T1) & (pa & T2) & T3 & C1 & C2 & C3).
  assert (exists n, n < 65536 /\ port_meant (scheme_port s) po n) as (n & N1 & N2).
  { destruct C2 as [->|(ds & -> & Nd & C2)]; [exists (scheme_port s); split; [destruct s; reflexivity|reflexivity]|].
    exists (num_of ds). split; [exact C2|]. destruct ds; [congruence|reflexivity]. }
  assert (exists o, query_meant q o) as (o & Ho).
  { destruct Q as [|y Y]; [exists None; reflexivity|]. destruct (T3 y eq_refl) as (z & Z). exists (Some z). cbn. eauto. }
  exists (mkUrl s pa None None (Some d) (Some n) o), d, n. unfold url_meant. cbn [u_scheme u_path u_user u_pass u_domain u_port u_query].
  repeat match goal with |- _ /\ _ => split end; try reflexivity; try assumption. apply abs_path_meant; assumption.
Qed.
Lemma header_meant a d n hs u q h : lower_names hs -> Forall (same_host a) hs -> hf_fields h = hm_insert_all [] hs ->
  u_domain u = Some d -> u_port u = Some n ->
  (forall d n, u_domain u = Some d -> u_port u = Some n -> q_header q = hm_insert_all [(str "Host", d ++ 58 :: dec_print n)] (hf_fields h)) ->
  (q_header q = (str "Host", host_value a d n hs) :: others hs <-> distinct_names (others hs)).
Proof.
  intros L S F D N H. rewrite (H d n D N), F, (request_header a) by assumption. unfold host_value. rewrite <- insert_all_same. split.
  - intros E. injection E as E. symmetry. exact E.
  - intros E. rewrite <- E. reflexivity.
Qed.
Lemma fields_lower hs : Forall h2_field hs -> lower_names hs.
Proof. apply Forall_impl. intros f [L _]. exact L. Qed.
Lemma known_name m k : method_value m k -> method_str k = m.
Proof. intros (s & I & ->). cbn in I. repeat (destruct I as [I|I]; [injection I as <- <-; reflexivity|]). destruct I. Qed.

Lemma request_exact L fh r fs : h2_request_ok r -> h2_request_list r fs ->
  ((exists q, read_request L fh fs = Ok q /\ request_meant r q) <-> request_readable L r fs).
Proof.
  destruct r as [m s h po p q hs]. unfold h2_request_ok, h2_request_list, request_meant, request_readable, hr_authority.
  cbn [hr_method hr_scheme hr_host hr_port hr_path hr_query hr_fields].
  intros (Hm & Nc & S & Nh & H & O & P & Q & F & SH) (ps & Pm & ->). pose proof (fields_lower _ F) as Lo.
  pose proof (authority_ascii _ _ H O) as Aa. pose proof (target_ascii _ _ P Q) as Ap. unfold read_request. split.
  - intros (q' & R & Mm & d & n & U & Hd). apply read_ok in R as (T & hs' & pt & Hl & E). split; [exact T|].
    apply (list_request ps hs m s (h ++ po) (p ++ q)) in Hl as (mm & M & -> & ->); [|assumption..].
    split. { destruct M as (x & I & ->). eauto. }
    assert (exists u, parts_build_url (mkParts (Some mm) (Some s) (Some (h ++ po)) (Some (p ++ q)) None) = Ok u) as (u & B).
    { unfold headers_into_request in E. cbn [hf_parts] in E. destruct (parts_build_url _) as [u| | |]; try discriminate E. eauto. }
    destruct (built (mkHeaders (fh_id fh) None (hm_insert_all [] hs) (mkParts (Some mm) (Some s) (Some (h ++ po)) (Some (p ++ q)) None) (fh_flag fh)) u mm q' B eq_refl E) as (Eu & Em & Eh).
    rewrite Eu in U. split.
    + apply (url_exact s h po p q u); try assumption. split; [exact B|eauto].
    + pose proof U as (_ & _ & _ & U4 & _ & U6 & _). eapply (header_meant (h ++ po) d n hs u q'); try eassumption. reflexivity.
  - intros (T & (mm & x & I & Em) & TR & D).
    destruct (url_there s h po p q S P Q O TR) as (u & d & n & U).
    assert (B : parts_build_url (mkParts (Some mm) (Some s) (Some (h ++ po)) (Some (p ++ q)) None) = Ok u).
    { apply (url_exact s h po p q u); try assumption. split; [exact TR|eauto]. }
    destruct (build_ok (mkHeaders (fh_id fh) None (hm_insert_all [] hs) (mkParts (Some mm) (Some s) (Some (h ++ po)) (Some (p ++ q)) None) (fh_flag fh)) u mm B eq_refl) as (q' & E).
    destruct (built (mkHeaders (fh_id fh) None (hm_insert_all [] hs) (mkParts (Some mm) (Some s) (Some (h ++ po)) (Some (p ++ q)) None) (fh_flag fh)) u mm q' B eq_refl E) as (Eu & Eq & Eh).
    assert (MV : method_value m mm) by (exists x; auto).
    exists q'. split.
    + apply read_ok. split; [exact T|]. eexists _, _. split; [|exact E]. apply (list_request ps hs m s (h ++ po) (p ++ q)); try assumption. exists mm. auto.
    + split; [rewrite Eq; apply known_name, MV|]. exists d, n. rewrite Eu. split; [exact U|].
      pose proof U as (_ & _ & _ & U4 & _ & U6 & _). eapply (header_meant (h ++ po) d n hs u q'); try eassumption. reflexivity.
Qed.
Lemma slash_text : text_of (str "/") (str "/").
Proof. split; [change (str "/") with [47]; apply pf_char; [lia|constructor]|apply utf8_valid_iff; reflexivity]. Qed.
Lemma connect_exact L fh h ds hs fs : connect_ok h ds hs -> connect_list h ds hs fs ->
  ((exists q, read_request L fh fs = Ok q /\ connect_meant h ds hs q) <->
   total_size fs <= L /\ text_has h /\ ~ In 58 h /\ num_of ds < 65536 /\ distinct_names (others hs)).
Proof.
  intros (Nh & H & Nd & Fd & F & SH) (ps & Pm & ->). pose proof (fields_lower _ F) as Lo. unfold connect_meant.
  assert (O : port_opt (58 :: ds)) by (constructor; exact Fd). pose proof (authority_ascii _ _ H O) as Aa.
  assert (P : abs_path (str "/")) by (apply (ap_intro []); constructor). assert (Q : query_text []) by constructor.
  assert (S : In ScHttp [ScHttp; ScHttps]) by (left; reflexivity).
  assert (TR : target_readable h (58 :: ds) (str "/") [] <-> text_has h /\ ~ In 58 h /\ num_of ds < 65536).
  { unfold target_readable, port_fine. split.
    - intros (A & _ & _ & B & [C|(x & [= <-] & _ & C)] & _); [discriminate C|auto].
    - intros (A & B & C). split; [exact A|]. split; [eexists; exact slash_text|]. split; [discriminate|]. split; [exact B|].
      split; [right; exists ds; auto|]. cbn. intuition discriminate. }
  set (pt := mkParts (Some MConnect) None (Some (h ++ 58 :: ds)) None None).
  set (hf := mkHeaders (fh_id fh) None (hm_insert_all [] hs) pt (fh_flag fh)).
  unfold read_request. split.
  - intros (q & R & Mm & d & n & U & Hd). apply read_ok in R as (T & hs' & p' & Hl & E). split; [exact T|].
    apply (list_connect ps hs (h ++ 58 :: ds)) in Hl as (-> & ->); [|assumption..]. fold pt in E. fold hf in E.
    assert (exists u, parts_build_url pt = Ok u) as (u & B).
    { exact (into_built hf _ _ E). }
    destruct (built hf u MConnect q B eq_refl E) as (Eu & Em & Eh). rewrite Eu in U.
    assert (K : target_readable h (58 :: ds) (str "/") []).
    { apply (url_exact ScHttp h (58 :: ds) (str "/") [] u); try assumption. split; [exact B|eauto]. }
    apply TR in K. destruct K as (K1 & K2 & K3). repeat match goal with |- _ /\ _ => split end; try assumption.
    pose proof U as (_ & _ & _ & U4 & _ & U6 & _). eapply (header_meant (h ++ 58 :: ds) d n hs u q hf); try eassumption. reflexivity.
  - intros (T & K1 & K2 & K3 & D). assert (K : target_readable h (58 :: ds) (str "/") []) by (apply TR; auto).
    destruct (url_there ScHttp h (58 :: ds) (str "/") [] S P Q O K) as (u & d & n & U).
    assert (B : parts_build_url pt = Ok u). { apply (url_exact ScHttp h (58 :: ds) (str "/") [] u); try assumption. split; [exact K|eauto]. }
    destruct (build_ok hf u MConnect B eq_refl) as (q & E). destruct (built hf u MConnect q B eq_refl E) as (Eu & Eq & Eh).
    exists q. split.
    + apply read_ok. split; [exact T|]. exists (hm_insert_all [] hs), pt. split; [|exact E]. apply (list_connect ps hs (h ++ 58 :: ds)); try assumption. auto.
    + split; [exact Eq|]. exists d, n. rewrite Eu. split; [exact U|].
      pose proof U as (_ & _ & _ & U4 & _ & U6 & _). eapply (header_meant (h ++ 58 :: ds) d n hs u q hf); try eassumption. reflexivity.
Qed.

(** ** Responses *)
Lemma response_exact L fh code hs fs : Forall h2_field hs -> code < 1000 -> response_list code hs fs ->
  ((exists p, read_response L fh fs = Ok p /\ p_status p = code /\ p_header p = hs) <->
   total_size fs <= L /\ 100 <= code /\ distinct_names hs).
Proof.
  intros F C ->. pose proof (fields_lower _ F) as Lo. unfold read_response.
  assert (Z : hm_insert_all [] (hm_insert_all [] hs) = hm_insert_all [] hs).
  { symmetry. apply insert_all_same. rewrite insert_all_fields. apply distinct_add. exact I. }
  split.
  - intros (p & R & E1 & E2). apply read_ok in R as (T & hs' & p' & Hl & E). split; [exact T|].
    apply list_response in Hl as (C1 & -> & ->); [|assumption..]. split; [exact C1|].
    unfold headers_into_response in E. injection E as <-.
    assert (E3 : hm_insert_all [] (hm_insert_all [] hs) = hs) by exact E2. rewrite Z in E3. apply insert_all_same. symmetry. exact E3.
  - intros (T & C1 & D). exists (mkResp code V11 (hm_insert_all [] (hm_insert_all [] hs)) false). split; [|split; [reflexivity|]].
    + apply read_ok. split; [exact T|]. exists (hm_insert_all [] hs), (mkParts None None None None (Some code)). split; [|reflexivity].
      apply list_response; auto.
    + cbn [p_header]. rewrite Z. symmetry. apply insert_all_same, D.
Qed.

(** ** In frames *)
Lemma headers_frame t L fl r id p od block fs dyn rest : decoder_reach t -> bytes_ok (frame_octets 1 fl (r * 2147483648 + id) p ++ rest) ->
  blen p < 16777216 -> r <= 1 -> id < 2147483648 -> rfc_headers fl p od block ->
  block_repr rfc_lookup (fun i => i < 127 /\ i <> 15) (fun i => i <> 15) (hi_max t) (hi_table t) block fs dyn ->
  (forall t' hf, recv t L (frame_octets 1 fl (r * 2147483648 + id) p ++ rest) = (t', Ok (FHeaders hf, rest)) ->
     defined_flags fl /\ (In [] (map fst (hf_fields hf)) \/
       ((flag_on fl 3 -> hd_error p = Some 0) /\ total_size fs <= L /\ header_list fs (hf_fields hf) (hf_parts hf)))) /\
  (forall hs pt, defined_flags fl -> (flag_on fl 3 -> hd_error p = Some 0) -> total_size fs <= L -> header_list fs hs pt ->
     recv t L (frame_octets 1 fl (r * 2147483648 + id) p ++ rest) =
     (mkIdx dyn (total_size dyn) (hi_max t), Ok (FHeaders (mkHeaders id od hs pt fl), rest))).
Proof.
  intros Dr B Lp R Hi H Hr. pose proof (reach_inv _ Dr) as Iv. destruct (inv_idx_of t Iv) as [Et T].
  assert (Bb : bytes_ok block).
  { apply frame_payload in B. destruct H as [q b P5 P3|q d b P5 Dd P3]; inversion P3 as [q' Q E1 E2|n d' Q Hn E1 E2]; subst; rewrite ?bytes_ok_cons, ?bytes_ok_app in B; tauto. }
  assert (Hb : block_read (hi_max t) (hi_table t) block fs dyn).
  { pose proof (proj2 (decode_rfc_block _ _ _ _ _ T Hr)) as E. unfold idx_of in Et, E.
    assert (E' : decode_headers t block = (mkIdx dyn (total_size dyn) (hi_max t), Ok fs)) by (rewrite Et at 1; exact E).
    apply decode_iff in E' as (d' & X & Y); [|assumption..]. injection Y as <- _. exact X. }
  split.
  - intros t' hf K. apply recv_frame in K as (D & l & U & G); [|assumption..]. split; [exact D|].
    assert (K : exists x, rfc_padded fl p x /\ x = match od with None => block | Some d => dep_octets d ++ block end /\ (flag_on fl 5 <-> od <> None)).
    { destruct H as [p block P5 P3|p d block P5 Dd P3]; eexists; (split; [exact P3|]); (split; [reflexivity|]); split; congruence. }
    destruct K as (x & P3 & Ex & P5).
    assert (K : exists z, l = x ++ repeat 0 (N.to_nat z) /\ (flag_on fl 3 -> hd_error p = Some z)).
    { destruct P3 as [p P3|n d P3 Hn]; inversion U; subst; try contradiction; [exists 0; split; [cbn; rewrite app_nil_r; reflexivity|contradiction]|].
      exists n. split; [reflexivity|auto]. }
    destruct K as (z & -> & Hz). clear U P3.
    assert (K : exists pl dy, block_read (hi_max t) (hi_table t) (block ++ repeat 0 (N.to_nat z)) pl dy /\ total_size pl <= L /\ header_list pl (hf_fields hf) (hf_parts hf)).
    { remember (x ++ repeat 0 (N.to_nat z)) as w eqn:Ew. inversion G; subst; cbn [hf_fields hf_parts].
      - destruct od as [d|]; [exfalso; match goal with X : ~ flag_on _ 5 |- _ => apply X, P5; discriminate end|]. eauto.
      - destruct od as [d0|]; [|exfalso; match goal with X : flag_on _ 5 |- _ => apply P5 in X; apply X; reflexivity end]. rewrite <- app_assoc in *.
        match goal with X : dep_octets _ ++ _ = dep_octets _ ++ _ |- _ => apply app_same_length in X as [_ X]; [|reflexivity]; rewrite <- X end. eauto. }
    destruct K as (pl & dy & K1 & K2 & K3). destruct (N.eq_dec z 0) as [->|Nz].
    + right. cbn [N.to_nat repeat] in K1. rewrite app_nil_r in K1. destruct (block_same _ _ _ _ _ _ _ T Hb K1) as [<- _]. auto.
    + left. destruct (block_app _ _ _ _ _ T Hb _ _ _ K1) as (zs & -> & Zs). remember (repeat 0 (N.to_nat z)) as w eqn:E in Zs.
      destruct Zs as [|d l f d1 ls zs d2 Z1 Z2].
      * assert (length (@nil N) = N.to_nat z) by (rewrite E; apply repeat_length). cbn in *. lia.
      * pose proof (zeros_field _ _ _ _ _ _ _ Z1 (eq_sym E)) as ->. apply empty_field_kept in K3. exact K3.
  - intros hs pt D P S Q. apply recv_frame; [assumption..|]. split; [exact D|].
    assert (U : forall x, rfc_padded fl p x -> unpadded fl p x).
    { intros x K. inversion K as [q P3 E1 E2|n d P3 Hn E1 E2]; subst; [apply up_plain, P3|]. specialize (P P3). cbn in P. injection P as ->. cbn [N.to_nat repeat]. rewrite app_nil_r. apply up_pad; [exact P3|lia]. }
    destruct H as [p block P5 P3|p d block P5 Dd P3]; eexists; (split; [apply U, P3|]).
    + eapply fr_headers; eassumption.
    + eapply fr_headers_prio; eassumption.
Qed.
Lemma frame_message {A} (k : headersf -> res A) (Q : A -> Prop) fh t L fl r id p od block fs dyn rest :
  (forall h h', hf_fields h = hf_fields h' -> hf_parts h = hf_parts h' -> k h = k h') ->
  (forall h a, k h = Ok a -> In [] (map fst (hf_fields h)) -> ~ Q a) ->
  decoder_reach t -> bytes_ok (frame_octets 1 fl (r * 2147483648 + id) p ++ rest) ->
  blen p < 16777216 -> r <= 1 -> id < 2147483648 -> rfc_headers fl p od block ->
  block_repr rfc_lookup (fun i => i < 127 /\ i <> 15) (fun i => i <> 15) (hi_max t) (hi_table t) block fs dyn ->
  ((exists t' hf a, recv t L (frame_octets 1 fl (r * 2147483648 + id) p ++ rest) = (t', Ok (FHeaders hf, rest)) /\ k hf = Ok a /\ Q a) <->
   defined_flags fl /\ (flag_on fl 3 -> hd_error p = Some 0) /\ exists a, read_with L fh fs k = Ok a /\ Q a).
Proof.
  intros Hk Hq D B Lp R Hi H Hb. destruct (headers_frame t L fl r id p od block fs dyn rest) as [G1 G2]; try assumption. split.
  - intros (t' & hf & a & Rv & K & Qa). apply G1 in Rv as [F [N|(P & T & HL)]]; [destruct (Hq hf a K N Qa)|].
    split; [exact F|]. split; [exact P|]. exists a. split; [|exact Qa]. apply read_ok. split; [exact T|]. eexists _, _. split; [exact HL|].
    rewrite <- K. apply Hk; reflexivity.
  - intros (F & P & a & K & Qa). apply read_ok in K as (T & hs & pt & HL & K). specialize (G2 hs pt F P T HL). eexists _, _, a. split; [exact G2|].
    split; [|exact Qa]. rewrite <- K. apply Hk; reflexivity.
Qed.
Lemma into_request_same h h' : hf_fields h = hf_fields h' -> hf_parts h = hf_parts h' -> headers_into_request h req_default = headers_into_request h' req_default.
Proof. intros F P. unfold headers_into_request. rewrite F, P. reflexivity. Qed.
Lemma into_request_empty h q : headers_into_request h req_default = Ok q -> In [] (map fst (hf_fields h)) -> In [] (map fst (q_header q)).
Proof.
  unfold headers_into_request. intros E H. destruct (parts_build_url (hf_parts h)); [|discriminate E..]. cbn [bind] in E. injection E as <-.
  unfold req_set_header. cbn [q_header]. apply insert_all_empty. right. exact H.
Qed.
Lemma no_empty_name x hs : lower_names hs -> ~ In [] (map fst ((str "Host", x) :: others hs)).
Proof.
  intros L [K|K]; [discriminate K|]. apply in_map_iff in K as (f & E & K). unfold others in K. apply filter_In in K as [K _].
  unfold lower_names in L. rewrite Forall_forall in L. apply L in K. destruct K as [K _]. contradiction.
Qed.
Lemma request_frame t L fl r id p od block rq fs dyn rest : h2_request_ok rq -> h2_request_list rq fs ->
  decoder_reach t -> bytes_ok (frame_octets 1 fl (r * 2147483648 + id) p ++ rest) ->
  blen p < 16777216 -> r <= 1 -> id < 2147483648 -> rfc_headers fl p od block ->
  block_repr rfc_lookup (fun i => i < 127 /\ i <> 15) (fun i => i <> 15) (hi_max t) (hi_table t) block fs dyn ->
  ((exists t' hf q, recv t L (frame_octets 1 fl (r * 2147483648 + id) p ++ rest) = (t', Ok (FHeaders hf, rest)) /\
     headers_into_request hf req_default = Ok q /\ request_meant rq q) <->
   defined_flags fl /\ (flag_on fl 3 -> hd_error p = Some 0) /\ request_readable L rq fs).
Proof.
  intros O Li D B Lp R Hi H Hb. rewrite <- (request_exact L (mkFH 0 KHeaders 0 0) rq fs O Li). unfold read_request.
  eapply (frame_message (fun h => headers_into_request h req_default)); try eassumption; [exact into_request_same|].
  intros h q E N (_ & d & n & _ & Hd). pose proof (into_request_empty h q E N) as K. rewrite Hd in K. revert K. apply no_empty_name, fields_lower. apply O.
Qed.
Lemma connect_frame t L fl r id p od block h ds hs fs dyn rest : connect_ok h ds hs -> connect_list h ds hs fs ->
  decoder_reach t -> bytes_ok (frame_octets 1 fl (r * 2147483648 + id) p ++ rest) ->
  blen p < 16777216 -> r <= 1 -> id < 2147483648 -> rfc_headers fl p od block ->
  block_repr rfc_lookup (fun i => i < 127 /\ i <> 15) (fun i => i <> 15) (hi_max t) (hi_table t) block fs dyn ->
  ((exists t' hf q, recv t L (frame_octets 1 fl (r * 2147483648 + id) p ++ rest) = (t', Ok (FHeaders hf, rest)) /\
     headers_into_request hf req_default = Ok q /\ connect_meant h ds hs q) <->
   defined_flags fl /\ (flag_on fl 3 -> hd_error p = Some 0) /\
   total_size fs <= L /\ text_has h /\ ~ In 58 h /\ num_of ds < 65536 /\ distinct_names (others hs)).
Proof.
  intros O Li D B Lp R Hi H Hb. rewrite <- (connect_exact L (mkFH 0 KHeaders 0 0) h ds hs fs O Li). unfold read_request.
  eapply (frame_message (fun h => headers_into_request h req_default)); try eassumption; [exact into_request_same|].
  intros hf q E N (_ & d & n & _ & Hd). pose proof (into_request_empty hf q E N) as K. rewrite Hd in K. revert K. apply no_empty_name, fields_lower. apply O.
Qed.
Lemma response_frame t L fl r id p od block code hs fs dyn rest : Forall h2_field hs -> code < 1000 -> response_list code hs fs ->
  decoder_reach t -> bytes_ok (frame_octets 1 fl (r * 2147483648 + id) p ++ rest) ->
  blen p < 16777216 -> r <= 1 -> id < 2147483648 -> rfc_headers fl p od block ->
  block_repr rfc_lookup (fun i => i < 127 /\ i <> 15) (fun i => i <> 15) (hi_max t) (hi_table t) block fs dyn ->
  ((exists t' hf, recv t L (frame_octets 1 fl (r * 2147483648 + id) p ++ rest) = (t', Ok (FHeaders hf, rest)) /\
     p_status (headers_into_response hf resp_default) = code /\ p_header (headers_into_response hf resp_default) = hs) <->
   defined_flags fl /\ (flag_on fl 3 -> hd_error p = Some 0) /\ total_size fs <= L /\ 100 <= code /\ distinct_names hs).
Proof.
  intros F C Li D B Lp R Hi H Hb. rewrite <- (response_exact L (mkFH 0 KHeaders 0 0) code hs fs F C Li). unfold read_response.
  rewrite <- (frame_message (fun h => Ok (headers_into_response h resp_default)) (fun p => p_status p = code /\ p_header p = hs) (mkFH 0 KHeaders 0 0) t L fl r id p od block fs dyn rest); try eassumption.
  - split.
    + intros (t' & hf & K & E). eexists _, _, _. split; [exact K|]. split; [reflexivity|exact E].
    + intros (t' & hf & a & K & E & Q). injection E as <-. eauto.
  - intros h h' E1 E2. unfold headers_into_response. rewrite E1, E2. reflexivity.
  - intros h a E N (_ & Hd). injection E as <-.
    assert (K : In [] (map fst (p_header (headers_into_response h resp_default)))).
    { unfold headers_into_response, resp_set_header. cbn [p_header]. apply insert_all_empty. right. exact N. }
    rewrite Hd in K. apply in_map_iff in K as (f & E & K). apply fields_lower in F. unfold lower_names in F. rewrite Forall_forall in F. apply F in K. destruct K as [K _]. contradiction.
Qed.

(** ** Departures *)
Lemma reg_char_not b : unreserved b \/ sub_delim b -> b <> 37 /\ vchar b /\ b < 128.
Proof. intros [[K|[K|K]]|K]; unfold alpha, upper, lower, digit, vchar in *; cbn in K; lia. Qed.
Lemma reg_text h : Forall (fun b => unreserved b \/ sub_delim b) h -> reg_name h /\ text_of h h /\ Forall (fun b => b < 128) h.
Proof.
  intros F. assert (A : Forall (fun b => b < 128) h) by (eapply Forall_impl; [|exact F]; intros b K; apply reg_char_not in K; lia).
  split; [|split; [|exact A]].
  - unfold reg_name. clear A. induction F as [|b h K _ IH]; [constructor|apply pt_char; assumption].
  - split; [|apply utf8_valid_iff, utf8_valid_ascii, A]. clear A. induction F as [|b h K _ IH]; [constructor|]. apply pf_char; [apply reg_char_not in K; lia|exact IH].
Qed.
Lemma reg_no h : Forall (fun b => unreserved b \/ sub_delim b) h -> ~ In 58 h.
Proof. intros F K. rewrite Forall_forall in F. apply F in K. destruct K as [[K|[K|K]]|K]; unfold alpha, upper, lower, digit in *; cbn in K; lia. Qed.
(** A path that does not start with '/' becomes part of the host. *)
Lemma glued L fh k m s h p hs fs : In (k, m) method_names -> In s [ScHttp; ScHttps] ->
  Forall (fun b => unreserved b \/ sub_delim b) h -> Forall (fun b => unreserved b \/ sub_delim b) p -> Forall h2_field hs ->
  fs = pseudo_request (str m) (scheme_str s) h p ++ hs -> total_size fs <= L ->
  exists q, read_request L fh fs = Ok q /\ q_method q = k /\ u_domain (q_url q) = Some (h ++ p) /\ u_path (q_url q) = str "/".
Proof.
  intros M S Fh Fp F -> T. pose proof (fields_lower _ F) as Lo.
  assert (Fg : Forall (fun b => unreserved b \/ sub_delim b) (h ++ p)) by (apply Forall_app; auto).
  destruct (reg_text _ Fg) as (Rg & Tx & _). destruct (reg_text _ Fh) as (_ & _ & Ah). destruct (reg_text _ Fp) as (_ & _ & Ap).
  set (u := mkUrl s (str "/") None None (Some (h ++ p)) (Some (scheme_port s)) None).
  assert (B : url_parse (scheme_str s ++ str "://" ++ (h ++ p) ++ [] ++ [] ++ []) = Ok u).
  { apply (absolute_url s (scheme_port s) (h ++ p) [] [] [] u (h ++ p) (scheme_port s)); try reflexivity; try exact Tx.
    - destruct S as [<-|[<-|[]]]; auto.
    - left. exact Rg.
    - constructor.
    - left. reflexivity.
    - constructor.
    - destruct S as [<-|[<-|[]]]; reflexivity.
    - split; [apply reg_no, Fg|]. split; [discriminate|]. split; [intros []|reflexivity]. }
  cbn [app] in B. rewrite app_nil_r in B.
  assert (MV : method_value (str m) k) by (exists m; auto).
  set (hf := mkHeaders (fh_id fh) None (hm_insert_all [] hs) (mkParts (Some k) (Some s) (Some h) (Some p) None) (fh_flag fh)).
  destruct (build_ok hf u k B eq_refl) as (q & E). destruct (built hf u k q B eq_refl E) as (Eu & Em & _).
  exists q. split; [|rewrite Eu; auto]. unfold read_request. apply read_ok. split; [exact T|]. eexists _, _. split; [|exact E].
  apply (list_request _ hs (str m) s h p); try assumption; [apply Permutation_refl|]. exists k. auto.
Qed.

Lemma vchar_value v : Forall vchar v -> rfc_value v.
Proof.
  intros F. destruct v as [|b v]; [left; reflexivity|right]. destruct v as [|c v _] using rev_ind; [left; exists b; split; [reflexivity|left; exact (Forall_inv F)]|].
  right. exists b, v, c. split; [reflexivity|]. pose proof (Forall_inv_tail F) as F'. apply Forall_app in F' as [F1 F2].
  split; [left; exact (Forall_inv F)|]. split; [left; exact (Forall_inv F2)|]. eapply Forall_impl; [|exact F1]. intros x X. left. left. exact X.
Qed.
Lemma lower_head n : lower_token n -> hd_error n <> Some 58.
Proof. intros [N F]. destruct n as [|b n]; [congruence|]. cbn. intros [= ->]. destruct (Forall_inv F) as [T _]. apply tchar_not in T. lia. Qed.
Lemma filter_once n (ps : list hfield) : NoDup (map fst ps) -> (length (filter (fun f : hfield => beq (fst f) n) ps) <= 1)%nat.
Proof.
  induction ps as [|[m v] ps IH]; intros D; [cbn; lia|]. cbn [map fst] in D. apply NoDup_cons_iff in D as [D1 D2]. specialize (IH D2). cbn [filter fst].
  destruct (beq m n) eqn:E; [|exact IH]. apply beq_eq in E. subst m. cbn [length].
  replace (filter (fun f : hfield => beq (fst f) n) ps) with (@nil hfield); [cbn; lia|]. symmetry. clear IH D2. induction ps as [|[m w] ps IH]; [reflexivity|].
  cbn [filter fst]. destruct (beq m n) eqn:E; [apply beq_eq in E; subst m; destruct D1; left; reflexivity|]. apply IH. intros K. apply D1. right. exact K.
Qed.
Lemma filter_none {A} (g : A -> bool) l : Forall (fun x => g x = false) l -> filter g l = [].
Proof. induction 1 as [|x l H _ IH]; [reflexivity|]. cbn. rewrite H. exact IH. Qed.
Lemma conforming_not_malformed r fs : h2_request_ok r -> h2_request_list r fs -> ~ malformed fs.
Proof.
  destruct r as [m s h po p q hs]. unfold h2_request_ok, h2_request_list, hr_authority. cbn [hr_method hr_scheme hr_host hr_port hr_path hr_query hr_fields].
  intros (Hm & Nc & S & Nh & H & O & P & Q & F & SH) (ps & Pm & ->). pose proof (fields_lower _ F) as Lo.
  set (qs := pseudo_request m (scheme_str s) (h ++ po) (p ++ q)) in *.
  assert (I : forall f, In f (ps ++ hs) -> In f qs \/ In f hs). { intros f K. apply in_app_or in K as [K|K]; [left; eapply Permutation_in; eassumption|auto]. }
  assert (J : forall f, In f qs -> In f (ps ++ hs)). { intros f K. apply in_or_app. left. eapply Permutation_in; [apply Permutation_sym; exact Pm|exact K]. }
  assert (T : forall f, In f hs -> lower_token (fst f)). { intros f K. unfold lower_names in Lo. rewrite Forall_forall in Lo. exact (Lo f K). }
  assert (C : forall f, In f qs -> hd_error (fst f) = Some 58). { intros f [<-|[<-|[<-|[<-|[]]]]]; reflexivity. }
  assert (D : NoDup (map fst ps)). { eapply perm_names; [exact Pm|]. apply pseudo_request_names. }
  assert (Hp : forall n v, In (n, v) (ps ++ hs) -> hd_error n = Some 58 -> In (n, v) qs).
  { intros n v K E. apply I in K as [K|K]; [exact K|]. apply T in K. apply lower_head in K. contradiction. }
  intros [n v K (b & B1 & B2)|n v b K B1 B2|n v K V|a f b g c E E1 E2|n K E|n v K E N|n v K N|N|N1 N2|K|a b K1 K2 N].
  - apply I in K as [K|K].
    + destruct K as [K|[K|[K|[K|[]]]]]; injection K as <- <-; unfold upper in B2; cbn in B1; lia.
    + apply T, lower_tchars in K. rewrite Forall_forall in K. apply K in B1 as [_ B1]. contradiction.
  - apply I in K as [K|K].
    + apply B2. destruct K as [K|[K|[K|[K|[]]]]]; injection K as <- <-; unfold tchar, alpha, lower; cbn in B1; lia.
    + apply T, lower_tchars in K. rewrite Forall_forall in K. destruct n as [|x n]; [destruct B1|]. destruct (K b (or_intror B1)). contradiction.
  - apply V. apply I in K as [K|K].
    + apply vchar_value. destruct K as [K|[K|[K|[K|[]]]]]; injection K as <- <-.
      * destruct Hm as [_ Hm]. eapply Forall_impl; [|exact Hm]. intros x X. apply tchar_not in X. unfold vchar. lia.
      * destruct S as [<-|[<-|[]]]; cbn; repeat constructor; unfold vchar; lia.
      * apply Forall_app. split; [apply host_vchar, H|apply port_vchar, O].
      * apply Forall_app. split; [apply abs_path_vchar, P|apply query_vchar, Q].
    + rewrite Forall_forall in F. apply F in K. apply K.
  - apply app_eq_app in E as (l & [[-> E]|[-> E]]).
    + destruct l as [|x l].
      * cbn in E. assert (K : In g hs). { rewrite <- E. right. apply in_or_app. right. left. reflexivity. } apply T, lower_head in K. contradiction.
      * cbn in E. injection E as <- E. assert (K : In f qs). { eapply Permutation_in; [exact Pm|]. apply in_or_app. right. left. reflexivity. } apply C in K. contradiction.
    + assert (K : In g hs). { rewrite E. apply in_or_app. right. right. apply in_or_app. right. left. reflexivity. } apply T, lower_head in K. contradiction.
  - rewrite filter_app, app_length, (filter_none _ hs) in K.
    + pose proof (filter_once n ps D). cbn [length] in K. lia.
    + apply Forall_forall. intros f X. apply beq_false. intros Y. apply T, lower_head in X. rewrite Y in X. contradiction.
  - apply Hp in K; [|exact E]. apply N. destruct K as [K|[K|[K|[K|[]]]]]; injection K as <- <-; cbn; auto.
  - apply I in K as [K|K].
    + destruct K as [K|[K|[K|[K|[]]]]]; injection K as <- <-; cbn in N; intuition discriminate.
    + rewrite Forall_forall in F. apply F in K. apply K. exact N.
  - apply N. change (str ":method") with (fst (str ":method", m)). apply List.in_map, J. left. reflexivity.
  - destruct N2 as [N2|N2]; apply N2.
    + change (str ":scheme") with (fst (str ":scheme", scheme_str s)). apply List.in_map, J. right. left. reflexivity.
    + change (str ":path") with (fst (str ":path", p ++ q)). apply List.in_map, J. right. right. right. left. reflexivity.
  - apply Hp in K; [|reflexivity]. destruct P as [p0 _]. destruct K as [K|[K|[K|[K|[]]]]]; try discriminate K.
  - apply Hp in K1; [|reflexivity]. assert (a = h ++ po) as ->.
    { destruct K1 as [K|[K|[K|[K|[]]]]]; try discriminate K. injection K as <-. reflexivity. }
    apply I in K2 as [K2|K2]; [apply C in K2; discriminate K2|]. rewrite Forall_forall in SH. apply N. symmetry. apply (SH _ K2). reflexivity.
Qed.
Lemma reg_path b : unreserved b \/ sub_delim b -> path_char b.
Proof. intros K. split; [apply reg_char_not in K; apply K|]. destruct K as [[K|[K|K]]|K]; unfold alpha, upper, lower, digit in *; cbn in *; lia. Qed.
Lemma reg_part b : unreserved b \/ sub_delim b -> part_char b.
Proof. intros K. split; [apply reg_char_not in K; apply K|]. destruct K as [[K|[K|K]]|K]; unfold alpha, upper, lower, digit in *; cbn in *; lia. Qed.
Lemma reg_pct h : Forall (fun b => unreserved b \/ sub_delim b) h -> pct_text (fun b => pchar b \/ b = 47) h.
Proof. induction 1 as [|b h K _ IH]; [constructor|]. apply pt_char; [unfold pchar; tauto|exact IH]. Qed.
Lemma pct_text_app P a b : pct_text P a -> pct_text P b -> pct_text P (a ++ b).
Proof. intros A B. induction A as [|x l K _ IH|x y l K1 K2 _ IH]; [exact B|apply pt_char; assumption|apply pt_esc; assumption]. Qed.
(** An '@' in the path: the text behind it becomes the host. *)
Lemma at_host L fh k m s h x e hs fs : In (k, m) method_names -> str m <> str "CONNECT" -> In s [ScHttp; ScHttps] -> h <> [] ->
  Forall (fun b => unreserved b \/ sub_delim b) h -> Forall (fun b => unreserved b \/ sub_delim b) x -> Forall (fun b => unreserved b \/ sub_delim b) e ->
  Forall h2_field hs -> Forall (same_host h) hs ->
  fs = pseudo_request (str m) (scheme_str s) h (47 :: x ++ 64 :: e) ++ hs -> total_size fs <= L ->
  h2_request_ok (mkH2Request (str m) s h [] (47 :: x ++ 64 :: e) [] hs) /\
  h2_request_list (mkH2Request (str m) s h [] (47 :: x ++ 64 :: e) [] hs) fs /\
  exists q, read_request L fh fs = Ok q /\ q_method q = k /\ u_domain (q_url q) = Some e.
Proof.
  intros M Nc S Nh Fh Fx Fe F SH -> T. pose proof (fields_lower _ F) as Lo.
  destruct (reg_text _ Fh) as (Rh & Th & Ah). destruct (reg_text _ Fx) as (_ & Tx & Ax). destruct (reg_text _ Fe) as (_ & Te & Ae).
  assert (MV : method_value (str m) k) by (exists m; auto).
  split; [|split].
  - unfold h2_request_ok, hr_authority. cbn [hr_method hr_scheme hr_host hr_port hr_path hr_query hr_fields]. rewrite app_nil_r.
    repeat match goal with |- _ /\ _ => split end; try assumption; try constructor.
    + cbn in M. repeat (destruct M as [M|M]; [injection M as <- <-; discriminate|]). destruct M.
    + cbn in M. repeat (destruct M as [M|M]; [injection M as <- <-; cbn; repeat (apply Forall_cons; [unfold tchar, alpha, upper; lia|]); apply Forall_nil|]). destruct M.
    + exact Rh.
    + apply pct_text_app; [apply reg_pct, Fx|]. apply pt_char; [left; unfold pchar; cbn; auto|apply reg_pct, Fe].
  - unfold h2_request_list, hr_authority. cbn [hr_method hr_scheme hr_host hr_port hr_path hr_query hr_fields]. rewrite !app_nil_r.
    eexists. split; [apply Permutation_refl|reflexivity].
  - set (pq := 47 :: x ++ 64 :: e). assert (Ap : Forall (fun b => b < 128) pq).
    { unfold pq. apply Forall_cons; [lia|]. apply Forall_app. split; [exact Ax|]. apply Forall_cons; [lia|exact Ae]. }
    assert (exists n, url_parse (scheme_str s ++ str "://" ++ h ++ pq) = Ok (mkUrl s (str "/") (Some h) (Some (47 :: x)) (Some e) (Some n) None)) as (n & B).
    { assert (exists n, In (s, n) default_ports) as (n & Hn) by (destruct S as [<-|[<-|[]]]; eexists; cbn; eauto). exists n.
      apply P_UrlAll.url_means_iff.
      - apply bytes_ok_app. split; [apply bytes_okb_ok; destruct S as [<-|[<-|[]]]; reflexivity|]. apply bytes_ok_app. split; [apply bytes_okb_ok; reflexivity|].
        apply bytes_ok_app. split; [eapply Forall_impl; [|exact Ah]|eapply Forall_impl; [|exact Ap]]; intros b; unfold byte_ok; cbn beta; lia.
      - apply (S_UrlAll.um_at_path s [] h h [] n x (47 :: x) e e).
        + destruct S as [<-|[<-|[]]]; constructor.
        + constructor.
        + eapply Forall_impl; [|exact Fh]. exact reg_part.
        + exact Th.
        + constructor. left. exact Hn.
        + eapply Forall_impl; [|exact Fx]. exact reg_path.
        + destruct Tx as [T1 T2]. split; [apply pf_char; [lia|exact T1]|]. apply utf8_valid_iff, utf8_valid_ascii. apply Forall_cons; [lia|exact Ax].
        + eapply Forall_impl; [|exact Fe]. exact reg_path.
        + exact Te. }
    set (hf := mkHeaders (fh_id fh) None (hm_insert_all [] hs) (mkParts (Some k) (Some s) (Some h) (Some pq) None) (fh_flag fh)).
    destruct (build_ok hf _ k B eq_refl) as (q & E). destruct (built hf _ k q B eq_refl E) as (Eu & Em & _).
    exists q. split; [|rewrite Eu; auto]. unfold read_request. apply read_ok. split; [exact T|]. eexists _, _. split; [|exact E].
    apply (list_request _ hs (str m) s h pq); try assumption; [apply Permutation_refl|]. exists k. auto.
Qed.
Lemma version_kept L fh fs q : read_request L fh fs = Ok q -> q_version q = V11.
Proof.
  unfold read_request, read_with. destruct (hdr_collect L 0 (headers_new fh []) fs) as [h [ |e| | ]] eqn:E; try discriminate.
  unfold headers_into_request. cbv zeta. destruct (parts_build_url (hf_parts h)) as [u|e| | ]; try discriminate.
  cbn [bind]. intros H. injection H as <-. destruct (pt_method (hf_parts h)), (url_connect u); reflexivity.
Qed.
