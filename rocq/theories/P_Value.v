(** Lemmas on names and values with their storage (C88). *)
From Coq Require Import Ascii String NArith ZArith Lia Bool List ZifyBool ZifyNat ZifyN.
From Verif Require Import Base S_Utf8 P_Base M_Std M_Helper M_Header S_Http1 S_Http1Api S_Map P_Map M_Url M_Http1 M_H2 P_H2Msg M_Build M_Value S_Value.
Import ListNotations.
Local Open Scope N_scope.

Lemma hv_bytes v : hv_as_bytes v = value_of v. Proof. destruct v; reflexivity. Qed.
Lemma hn_bytes n : hn_as_bytes n = name_of n. Proof. destruct n; reflexivity. Qed.
Lemma hv_push_bytes v w : value_of (hv_push v w) = value_of v ++ 59 :: value_of w.
Proof. destruct v, w; cbn; rewrite <- app_assoc; reflexivity. Qed.
Lemma hv_eq_iff v w : hv_eq v w = true <-> value_of v = value_of w.
Proof. destruct v, w; cbn; apply beq_eq. Qed.
Lemma hv_hash_iff v w : hv_hash v = hv_hash w <-> value_of v = value_of w.
Proof.
  assert (E : forall x, hv_hash x = slice_hash (value_of x)) by (intros [?|?]; reflexivity). rewrite !E. unfold slice_hash. split.
  - intros H. injection H. auto.
  - intros ->. reflexivity.
Qed.
Lemma hn_eq_name n m : hn_eq n m = name_eq (name_of n) (name_of m).
Proof. unfold hn_eq, name_eq. rewrite !hn_bytes. reflexivity. Qed.
Lemma hn_eqb_name n s : hn_eq_bytes n s = name_eq (name_of n) s.
Proof. unfold hn_eq_bytes, name_eq. rewrite hn_bytes. reflexivity. Qed.
Lemma hn_hash_fold n : hn_hash n = map HU8 (fold_name (name_of n)).
Proof. unfold hn_hash, fold_name. rewrite map_map. destruct n; reflexivity. Qed.

Lemma tm_insert_forget h n v : fields_of (tm_insert h n v) = hm_insert (fields_of h) (name_of n) (value_of v).
Proof.
  induction h as [|[n' v'] h IH]; [reflexivity|]. cbn [tm_insert fields_of map fst snd hm_insert]. rewrite hn_eq_name.
  destruct (name_eq _ _); cbn [map fst snd]; [reflexivity|]. f_equal. exact IH.
Qed.
Lemma tm_push_forget h n v : fields_of (tm_push h n v) = hm_push (fields_of h) (name_of n) (value_of v).
Proof.
  induction h as [|[n' v'] h IH]; [reflexivity|]. cbn [tm_push fields_of map fst snd hm_push]. rewrite hn_eq_name.
  destruct (name_eq _ _); cbn [map fst snd]; [unfold value_push; rewrite hv_push_bytes; reflexivity|]. f_equal. exact IH.
Qed.
Lemma tm_remove_forget h n : hm_remove (fields_of h) n = (fields_of (fst (tm_remove h n)), option_map value_of (snd (tm_remove h n))).
Proof.
  induction h as [|[n' v'] h IH]; [reflexivity|]. cbn [tm_remove fields_of map fst snd hm_remove]. rewrite hn_eqb_name.
  destruct (name_eq _ _); [reflexivity|]. unfold fields_of in IH. rewrite IH. destruct (tm_remove h n) as [r o]. reflexivity.
Qed.
Lemma tm_get_forget h n : hm_get (fields_of h) n = option_map value_of (tm_get h n).
Proof.
  induction h as [|[n' v'] h IH]; [reflexivity|]. cbn [tm_get fields_of map fst snd hm_get]. rewrite hn_eqb_name.
  destruct (name_eq _ _); [reflexivity|]. exact IH.
Qed.
Lemma tm_contains_forget h n : tm_contains h n = hm_contains (fields_of h) n.
Proof.
  unfold hm_contains. rewrite tm_get_forget. induction h as [|[n' v'] h IH]; [reflexivity|]. cbn [tm_contains tm_get].
  destruct (hn_eq_bytes _ _); [reflexivity|]. exact IH.
Qed.
Lemma tm_set_forget h n w : (exists h', tm_set h n w = Ok h' /\ hm_update (fields_of h) n (fun _ => value_of w) = Ok (fields_of h')) \/
  (tm_set h n w = Panic /\ hm_update (fields_of h) n (fun _ => value_of w) = Panic).
Proof.
  induction h as [|[n' v'] h IH]; [right; split; reflexivity|]. cbn [tm_set fields_of map fst snd hm_update]. rewrite hn_eqb_name.
  destruct (name_eq _ _); [left; eexists; split; reflexivity|]. unfold fields_of in IH.
  destruct IH as [(h' & E & F)|[E F]]; rewrite E, F; [left|right; split; reflexivity].
  eexists. split; reflexivity.
Qed.
Lemma tm_index_forget h n w : (exists h', tm_index_set h n w = Ok h' /\ hm_index_mut (fields_of h) n (fun _ => value_of w) = Ok (fields_of h')) \/
  (tm_index_set h n w = Panic /\ hm_index_mut (fields_of h) n (fun _ => value_of w) = Panic).
Proof.
  unfold tm_index_set, hm_index_mut. rewrite tm_contains_forget. destruct (hm_contains _ _); [apply tm_set_forget|].
  change (hm_insert (fields_of h) n []) with (hm_insert (fields_of h) (name_of (NStand n)) (value_of (VStand []))).
  rewrite <- tm_insert_forget. apply tm_set_forget.
Qed.
Definition erase (r : res hmap) : res headers := match r with Ok h => Ok (fields_of h) | Err e => Err e | Panic => Panic | Diverge => Diverge end.
Lemma top_run_forget h o : erase (top_run h o) = hop_run (fields_of h) (forget o).
Proof.
  destruct o; cbn [top_run forget hop_run erase].
  - rewrite tm_insert_forget. reflexivity.
  - rewrite tm_push_forget. reflexivity.
  - rewrite tm_remove_forget. reflexivity.
  - reflexivity.
  - destruct (tm_index_forget h n v) as [(h' & E & F)|[E F]]; rewrite E, F; reflexivity.
Qed.
Lemma tops_run_forget ops : erase (tops_run ops) = hops_run (map forget ops).
Proof.
  assert (G : forall r, erase (fold_left (fun r o => h <- r ;; top_run h o) ops r) =
    fold_left (fun r o => h <- r ;; hop_run h o) (map forget ops) (erase r)).
  { induction ops as [|o ops IH]; intros r; [reflexivity|]. cbn [fold_left map]. rewrite IH. f_equal.
    destruct r; cbn [bind erase]; try reflexivity. apply top_run_forget. }
  exact (G (Ok [])).
Qed.

(** The texts of literals stay texts. *)
Lemma text_insert h n v : text_values h -> text_value v -> text_values (tm_insert h n v).
Proof.
  intros H V. induction H as [|[n' v'] h E H IH]; [constructor; [exact V|constructor]|]. cbn [tm_insert].
  destruct (hn_eq n' n); constructor; try assumption.
Qed.
Lemma text_push h n v : text_values h -> text_value v -> text_values (tm_push h n v).
Proof.
  intros H V. induction H as [|[n' v'] h E H IH]; [constructor; [exact V|constructor]|]. cbn [tm_push].
  destruct (hn_eq n' n); constructor; try assumption. cbn [snd]. destruct v'; exact I.
Qed.
Lemma text_remove h n : text_values h -> text_values (fst (tm_remove h n)).
Proof.
  intros H. induction H as [|[n' v'] h E H IH]; [constructor|]. cbn [tm_remove]. destruct (hn_eq_bytes n' n); [exact H|].
  destruct (tm_remove h n) as [r o]. constructor; [exact E|exact IH].
Qed.
Lemma text_set h n w h' : text_values h -> text_value w -> tm_set h n w = Ok h' -> text_values h'.
Proof.
  intros H W. revert h'. induction H as [|[n' v'] h E H IH]; intros h' S; [discriminate S|]. cbn [tm_set] in S. destruct (hn_eq_bytes n' n).
  - injection S as <-. constructor; assumption.
  - destruct (tm_set h n w) as [r| | |]; try discriminate S. injection S as <-. constructor; [exact E|]. apply IH. reflexivity.
Qed.
Lemma text_run h o h' : text_values h -> top_text o -> top_run h o = Ok h' -> text_values h'.
Proof.
  intros H T E. destruct o; cbn [top_run top_text] in *; try (injection E as <-).
  - apply text_insert; assumption.
  - apply text_push; assumption.
  - apply text_remove; assumption.
  - constructor.
  - unfold tm_index_set in E. destruct (tm_contains h n); [eapply text_set; eassumption|]. eapply text_set; [|exact T|exact E].
    apply text_insert; [exact H|]. cbn. exists []. split; constructor.
Qed.
Lemma text_runs ops h : Forall top_text ops -> tops_run ops = Ok h -> text_values h.
Proof.
  unfold tops_run. assert (G : forall r h, (forall h0, r = Ok h0 -> text_values h0) -> Forall top_text ops ->
    fold_left (fun r o => h <- r ;; top_run h o) ops r = Ok h -> text_values h).
  { clear h. induction ops as [|o ops IH]; intros r h R T E; [apply R; exact E|]. inversion T; subst. cbn [fold_left] in E.
    refine (IH _ _ _ H2 E). intros h0 E0. destruct r as [h1| | |]; try discriminate E0. eapply text_run; [|exact H1|exact E0]. apply R. reflexivity. }
  intros T E. refine (G _ _ _ T E). intros h0 E0. injection E0 as <-. constructor.
Qed.

Lemma text_get h n v : text_values h -> tm_get h n = Some v -> text_value v.
Proof.
  intros H. induction H as [|[n' v'] h E H IH]; [discriminate|]. cbn [tm_get]. destruct (hn_eq_bytes n' n); [|exact IH].
  intros K. injection K as <-. exact E.
Qed.
Lemma text_string v : text_value v -> hv_as_string v = value_as_string (value_of v).
Proof.
  destruct v as [s|l]; [|reflexivity]. cbn. intros U. unfold value_as_string. rewrite (proj2 (utf8_valid_iff s) U). reflexivity.
Qed.
Lemma text_lossy v : text_value v -> hv_display v = utf8_lossy (value_of v).
Proof. destruct v as [s|l]; [|reflexivity]. cbn. intros U. symmetry. apply lossy_utf8, U. Qed.
Lemma text_to_string v : text_value v -> hv_to_string v = Ok (utf8_lossy (value_of v)).
Proof. intros U. rewrite <- (text_lossy v U). destruct v; reflexivity. Qed.
Lemma tm_text_forget h n : text_values h -> tm_text h n = option_map utf8_lossy (hm_get (fields_of h) n).
Proof.
  intros H. unfold tm_text. rewrite tm_get_forget. destruct (tm_get h n) as [v|] eqn:E; [|reflexivity].
  rewrite (text_to_string v (text_get _ _ _ H E)). reflexivity.
Qed.
Lemma tm_host_forget h : text_values h -> tm_get_host h = hm_get_host (fields_of h).
Proof.
  intros H. unfold tm_get_host, hm_get_host. rewrite (tm_text_forget h _ H). rewrite !tm_get_forget.
  destruct (tm_get h (str "host")) as [v|] eqn:E; cbn [option_map]; [rewrite (text_to_string v (text_get _ _ _ H E)); reflexivity|].
  destruct (tm_get h (str ":authority")); reflexivity.
Qed.
Lemma tm_str_forget h n : text_values h -> tm_get_str h n = hm_get_str (fields_of h) n.
Proof.
  intros H. unfold tm_get_str, hm_get_str. rewrite tm_get_forget. destruct (tm_get h n) as [v|] eqn:E; [|reflexivity].
  apply text_string, (text_get _ _ _ H E).
Qed.
Lemma tm_upgrade_forget h : text_values h -> tm_get_upgrade h = hm_get_upgrade (fields_of h).
Proof.
  intros H. unfold tm_get_upgrade, hm_get_upgrade. rewrite tm_get_forget. destruct (tm_get h (str "connection")) as [v|]; [|reflexivity].
  cbn [option_map]. rewrite hv_bytes. destruct (contains_bytes _ _); [|reflexivity]. exact (tm_str_forget h (str "upgrade") H).
Qed.
Lemma tm_encode_forget h : tm_encode h = hm_encode (fields_of h).
Proof.
  unfold tm_encode, hm_encode, fields_of. rewrite map_map. reflexivity.
Qed.
Lemma tm_display_forget h : text_values h -> tm_display h = hm_display (fields_of h).
Proof.
  intros H. unfold tm_display, hm_display. f_equal. f_equal. induction H as [|[n v] h E H IH]; [reflexivity|].
  cbn [map fields_of fst snd]. rewrite IH. unfold header_line_display at 2. cbn [fst snd] in *. rewrite (text_lossy v E). destruct n; reflexivity.
Qed.
Lemma tm_body_decimal h v n : tm_get h (str "content-length") = Some v -> decimal (value_of v) n -> n < 2 ^ 63 -> tm_body_len h = Ok (Z.of_N n).
Proof.
  intros G D L. unfold tm_body_len. rewrite G. destruct v as [s|l]; cbn [hv_isize value_of] in *.
  - rewrite (proj2 (isize_stand_exact s (Z.of_N n))); [reflexivity|]. split; [apply ss_plain; exact D|]. change (2 ^ 63)%Z with 9223372036854775808%Z.
    change (2 ^ 63) with 9223372036854775808 in L. lia.
  - pose proof (body_len_decimal [(str "content-length", l)] l n) as B. unfold hm_body_len in B.
    change (hm_get [(str "content-length", l)] (str "content-length")) with (Some l) in B. apply B; auto.
Qed.
Lemma tm_body_owned h v : tm_get h (str "content-length") = Some (VValue v) -> tm_body_len h = hm_body_len (fields_of h).
Proof. intros G. unfold tm_body_len, hm_body_len. rewrite tm_get_forget, G. reflexivity. Qed.
Lemma tm_body_literal h s z : tm_get h (str "content-length") = Some (VStand s) ->
  (tm_body_len h = Ok z <-> (std_signed s z /\ (- 2 ^ 63 <= z < 2 ^ 63)%Z) \/ (z = 0%Z /\ forall y, std_signed s y -> ~ (- 2 ^ 63 <= y < 2 ^ 63)%Z)).
Proof.
  intros G. unfold tm_body_len. rewrite G. cbn [hv_isize]. destruct (value_isize_stand s) as [y|e| |] eqn:E.
  - pose proof (proj1 (isize_stand_exact s y) E) as [S R]. split.
    + intros K. injection K as <-. left. split; assumption.
    + intros [K|[_ K]]; [|exfalso; exact (K y S R)]. apply isize_stand_exact in K. rewrite E in K. exact K.
  - split.
    + intros K. injection K as <-. right. split; [reflexivity|]. intros y S R. assert (K : value_isize_stand s = Ok y) by (apply isize_stand_exact; auto). congruence.
    + intros [K|[-> _]]; [|reflexivity]. apply isize_stand_exact in K. congruence.
  - unfold value_isize_stand in E. destruct (parse_sint isize_max1 s); discriminate E.
  - unfold value_isize_stand in E. destruct (parse_sint isize_max1 s); discriminate E.
Qed.
Lemma tm_eq_iff g h : tm_eq g h = true <-> Forall2 (fun a b => name_eq (name_of (fst a)) (name_of (fst b)) = true /\ value_of (snd a) = value_of (snd b)) g h.
Proof.
  revert h. induction g as [|[n v] g IH]; intros [|[m w] h]; cbn [tm_eq].
  - split; [constructor|reflexivity].
  - split; [discriminate|intros H; inversion H].
  - split; [discriminate|intros H; inversion H].
  - rewrite !andb_true_iff, IH, hv_eq_iff, hn_eq_name. split.
    + intros [[A B] C]. constructor; auto.
    + intros H. inversion H; subst. cbn [fst snd] in *. tauto.
Qed.
