From Coq Require Import Ascii String NArith ZArith Lia Bool List ZifyBool ZifyNat ZifyN.
From Verif Require Import Base P_Base M_Std M_Helper M_Header M_Url M_Http1 M_Hpack M_Frame M_H2 M_Ws S_Frame P_Frame P_Settings M_Access S_Access.
Import ListNotations.
Local Open Scope N_scope.

(** ** Flags: each setter changes one bit *)
Lemma testbit_pow2 a i : N.testbit (2 ^ a) i = (i =? a).
Proof. destruct (N.eqb_spec i a) as [->|H]; [apply N.pow2_bits_true|apply N.pow2_bits_false; lia]. Qed.
Lemma flag_set_bit f a on i : N.testbit (flag_set f (2 ^ a) on) i = if i =? a then on else N.testbit f i.
Proof.
  unfold flag_set. destruct on; rewrite ?N.lor_spec, ?N.ldiff_spec, testbit_pow2; destruct (i =? a); destruct (N.testbit f i); reflexivity.
Qed.
Lemma flag_contains_bit f a : flag_contains f (2 ^ a) = N.testbit f a.
Proof.
  unfold flag_contains. destruct (N.testbit f a) eqn:E.
  - apply N.eqb_eq, N.bits_inj. intros i. rewrite N.land_spec, testbit_pow2. destruct (N.eqb_spec i a) as [->|]; [rewrite E|apply andb_false_r]; reflexivity.
  - apply N.eqb_neq. intros K. apply (f_equal (fun x => N.testbit x a)) in K. rewrite N.land_spec, testbit_pow2, E, N.eqb_refl in K. discriminate K.
Qed.
Lemma flag_bits f : is_ack f = N.testbit f 0 /\ is_end_stream f = N.testbit f 0 /\ is_end_headers f = N.testbit f 2 /\
  is_padded f = N.testbit f 3 /\ is_priority f = N.testbit f 5.
Proof.
  split; [exact (flag_contains_bit f 0)|]. split; [exact (flag_contains_bit f 0)|]. split; [exact (flag_contains_bit f 2)|].
  split; [exact (flag_contains_bit f 3)|exact (flag_contains_bit f 5)].
Qed.
Lemma flag_setters f i :
  N.testbit (set_end_stream f) i = (if i =? 0 then true else N.testbit f i) /\
  N.testbit (unset_end_stream f) i = (if i =? 0 then false else N.testbit f i) /\
  N.testbit (set_end_headers f) i = (if i =? 2 then true else N.testbit f i) /\
  N.testbit (unset_end_headers f) i = (if i =? 2 then false else N.testbit f i) /\
  N.testbit (set_padded f) i = (if i =? 3 then true else N.testbit f i) /\
  N.testbit (unset_padded f) i = (if i =? 3 then false else N.testbit f i) /\
  N.testbit (flag_load f) i = (if i =? 0 then true else N.testbit f i).
Proof.
  split; [exact (flag_set_bit f 0 true i)|]. split; [exact (flag_set_bit f 0 false i)|]. split; [exact (flag_set_bit f 2 true i)|].
  split; [exact (flag_set_bit f 2 false i)|]. split; [exact (flag_set_bit f 3 true i)|]. split; [exact (flag_set_bit f 3 false i)|exact (flag_set_bit f 0 true i)].
Qed.

(** ** Settings *)
Definition frame_sizes_ok (cs : list settings_call) : Prop := forall n, In (CallFrameSize (Some n)) cs -> legal_frame_size n.
Lemma frame_size_okb n : frame_size_ok n = true <-> legal_frame_size n.
Proof. unfold frame_size_ok, legal_frame_size, DEFAULT_MAX_FRAME_SIZE, MAX_MAX_FRAME_SIZE. lia. Qed.

Lemma settings_calls_err cs r : (forall s, r <> Ok s) -> fold_left (fun r c => s <- r ;; settings_call_run s c) cs r = r.
Proof. induction cs as [|c cs IH]; intros H; [reflexivity|]. cbn [fold_left]. destruct r as [s| | |]; [destruct (H s eq_refl)|apply IH..]; cbn; intros; discriminate. Qed.
Lemma settings_calls_cons s c cs : settings_calls s (c :: cs) =
  match settings_call_run s c with Ok s' => settings_calls s' cs | r => r end.
Proof.
  unfold settings_calls. cbn [fold_left bind]. destruct (settings_call_run s c) as [s'| | |]; [reflexivity|rewrite settings_calls_err; [reflexivity|intros; discriminate]..].
Qed.

Lemma settings_calls_ok cs : forall s, frame_sizes_ok cs ->
  exists s', settings_calls s cs = Ok s' /\
    st_initial_window_size s' = latest sets_window (st_initial_window_size s) cs /\
    st_max_concurrent_streams s' = latest sets_concurrent (st_max_concurrent_streams s) cs /\
    st_max_frame_size s' = latest sets_frame_size (st_max_frame_size s) cs /\
    st_max_header_list_size s' = latest sets_list_size (st_max_header_list_size s) cs /\
    is_push_enabled s' = latest sets_push (is_push_enabled s) cs /\
    st_enable_connect_protocol s' = latest sets_connect (st_enable_connect_protocol s) cs /\
    st_header_table_size s' = st_header_table_size s /\ st_flags s' = st_flags s.
Proof.
  induction cs as [|c cs IH]; intros s H; [exists s; repeat split|].
  assert (H' : frame_sizes_ok cs) by (intros n I; apply H; right; exact I).
  rewrite settings_calls_cons. destruct c as [o|o|o|o|b|o]; cbn [settings_call_run latest sets_window sets_concurrent sets_frame_size sets_list_size sets_push sets_connect].
  3: assert (E : set_max_frame_size s o = Ok (with_max_frame_size s o)) by
       (destruct o as [n|]; [|reflexivity]; cbn; rewrite (proj2 (frame_size_okb n)); [reflexivity|apply H; left; reflexivity]); rewrite E.
  1-4,6: match goal with IH' : (forall s, frame_sizes_ok ?y -> _), H'' : frame_sizes_ok ?y |- context [settings_calls ?x ?y] => destruct (IH' x H'') as (s' & K); exists s'; exact K end.
  destruct (IH (set_enable_push s b) H') as (s' & K). exists s'. replace (is_push_enabled (set_enable_push s b)) with (Some b) in K by (destruct b; reflexivity). exact K.
Qed.
Lemma settings_calls_total cs : forall s, settings_calls s cs = Panic \/ exists s', settings_calls s cs = Ok s' .
Proof.
  induction cs as [|c cs IH]; intros s; [right; exists s; reflexivity|]. rewrite settings_calls_cons.
  destruct c as [o|o|o|o|b|o]; cbn [settings_call_run]; try apply IH.
  destruct o as [n|]; cbn [set_max_frame_size]; [destruct (frame_size_ok n); [apply IH|left; reflexivity]|apply IH].
Qed.
Lemma settings_calls_panic cs : forall s, settings_calls s cs = Panic <-> exists n, In (CallFrameSize (Some n)) cs /\ ~ legal_frame_size n.
Proof.
  induction cs as [|c cs IH]; intros s; [split; [discriminate|intros (n & [] & _)]|]. rewrite settings_calls_cons.
  assert (G : forall s', settings_call_run s c = Ok s' -> (forall n, c <> CallFrameSize (Some n) \/ legal_frame_size n) ->
     (settings_calls s' cs = Panic <-> exists n, In (CallFrameSize (Some n)) (c :: cs) /\ ~ legal_frame_size n)).
  { intros s' _ K. rewrite IH. split; intros (n & I & L); exists n; (split; [|exact L]); [right; exact I|]. destruct I as [->|I]; [|exact I]. destruct (K n) as [[]|Q]; [reflexivity|destruct (L Q)]. }
  destruct c as [o|o|o|o|b|o]; try (cbn [settings_call_run]; apply G; [reflexivity|intros; left; discriminate]).
  destruct o as [n|]; [|cbn; apply G; [reflexivity|intros; left; discriminate]].
  cbn [settings_call_run set_max_frame_size]. destruct (frame_size_ok n) eqn:E.
  - apply G; [cbn; rewrite E; reflexivity|]. intros m. destruct (N.eq_dec m n) as [->|D]; [right; apply frame_size_okb, E|left; congruence].
  - split; [|reflexivity]. intros _. exists n. split; [left; reflexivity|]. rewrite <- frame_size_okb. congruence.
Qed.

(** ** The peer sees the same settings *)
Lemma latest_in {A B} (sel : A -> option B) (P : B -> Prop) cs : forall d, P d -> (forall c v, In c cs -> sel c = Some v -> P v) -> P (latest sel d cs).
Proof.
  induction cs as [|c cs IH]; intros d D H; [exact D|]. cbn [latest]. apply IH; [|intros c' v I; apply H; right; exact I].
  destruct (sel c) as [v|] eqn:E; [apply (H c v); [left; reflexivity|exact E]|exact D].
Qed.
Lemma legal_calls_settings cs s : Forall legal_call cs -> settings_calls settings_default cs = Ok s -> legal_settings s.
Proof.
  intros L E. assert (F : frame_sizes_ok cs) by (intros n I; apply (proj1 (Forall_forall _ _) L _ I)).
  destruct (settings_calls_ok cs settings_default F) as (s' & E' & W & C & M & H & P & X & T & Fl). rewrite E in E'. injection E' as <-.
  assert (Lc : forall c, In c cs -> legal_call c) by (apply Forall_forall, L).
  assert (W' : forall n, st_initial_window_size s = Some n -> n <= 2147483647).
  { rewrite W. apply (latest_in sets_window (fun o => forall n, o = Some n -> n <= 2147483647)); [cbn; discriminate|].
    intros c v I Q n ->. destruct c; try discriminate Q. injection Q as ->. exact (Lc _ I). }
  assert (C' : forall n, st_max_concurrent_streams s = Some n -> n < 4294967296).
  { rewrite C. apply (latest_in sets_concurrent (fun o => forall n, o = Some n -> n < 4294967296)); [cbn; discriminate|].
    intros c v I Q n ->. destruct c; try discriminate Q. injection Q as ->. exact (Lc _ I). }
  assert (M' : forall n, st_max_frame_size s = Some n -> legal_frame_size n).
  { rewrite M. apply (latest_in sets_frame_size (fun o => forall n, o = Some n -> legal_frame_size n)); [cbn; discriminate|].
    intros c v I Q n ->. destruct c; try discriminate Q. injection Q as ->. exact (Lc _ I). }
  assert (H' : forall n, st_max_header_list_size s = Some n -> n < 4294967296).
  { rewrite H. apply (latest_in sets_list_size (fun o => forall n, o = Some n -> n < 4294967296)); [cbn; discriminate|].
    intros c v I Q n ->. destruct c; try discriminate Q. injection Q as ->. exact (Lc _ I). }
  assert (X' : forall n, st_enable_connect_protocol s = Some n -> n <= 1).
  { rewrite X. apply (latest_in sets_connect (fun o => forall n, o = Some n -> n <= 1)); [cbn; discriminate|].
    intros c v I Q n ->. destruct c; try discriminate Q. injection Q as ->. exact (Lc _ I). }
  assert (P' : forall n, st_enable_push s = Some n -> n <= 1).
  { clear -E. revert E. assert (Z : forall n, st_enable_push settings_default = Some n -> n <= 1) by (cbn; discriminate). revert Z.
    generalize settings_default as s0. induction cs as [|c cs IH]; intros s0 Z E; [injection E as <-; exact Z|].
    rewrite settings_calls_cons in E. destruct (settings_call_run s0 c) as [s1| | |] eqn:R; try discriminate E. apply (IH s1); [|exact E].
    destruct c as [o|o|o|o|b|o]; cbn [settings_call_run] in R; try (injection R as <-; exact Z).
    - destruct o as [n|]; cbn [set_max_frame_size] in R; [destruct (frame_size_ok n); [|discriminate R]|]; injection R as <-; exact Z.
    - injection R as <-. cbn. intros n Q. injection Q as <-. destruct b; lia. }
  split; [exact Fl|]. unfold entries_of. rewrite T. cbn [st_header_table_size settings_default].
  unfold legal_frame_size in M'.
  destruct (st_enable_push s), (st_max_concurrent_streams s), (st_initial_window_size s), (st_max_frame_size s), (st_max_header_list_size s), (st_enable_connect_protocol s);
    cbn [present app]; split; repeat constructor; cbn [fst snd entry_legal]; try lia;
    try (apply W'; reflexivity); try (apply X'; reflexivity); try (apply P'; reflexivity); try (apply H'; reflexivity); try (apply C'; reflexivity); try (apply M'; reflexivity);
    try (specialize (W' _ eq_refl); lia); try (specialize (X' _ eq_refl); lia); try (specialize (P' _ eq_refl); lia); try (specialize (M' _ eq_refl); lia).
Qed.

(** ** Headers, PushPromise, Data *)
Lemma headers_calls_ok cs : forall h, let h' := headers_calls h cs in
  hf_is_end_headers h' = latest sets_end_headers (hf_is_end_headers h) cs /\
  hf_is_end_stream h' = latest sets_end_stream (hf_is_end_stream h) cs /\
  hf_method h' = latest sets_method (hf_method h) cs /\
  hf_scheme h' = latest sets_scheme (hf_scheme h) cs /\
  hf_authority h' = latest sets_authority (hf_authority h) cs /\
  hf_path h' = latest sets_path (hf_path h) cs /\
  hf_status h' = latest sets_status (hf_status h) cs /\
  is_padded (hf_flags h') = is_padded (hf_flags h) /\ is_priority (hf_flags h') = is_priority (hf_flags h) /\
  hf_id h' = hf_id h /\ hf_dep h' = hf_dep h /\ hf_fields h' = hf_fields h.
Proof.
  induction cs as [|c cs IH]; intros h; cbn zeta; [repeat split|].
  change (headers_calls h (c :: cs)) with (headers_calls (headers_call_run h c) cs). specialize (IH (headers_call_run h c)). cbn zeta in IH.
  unfold hf_is_end_headers, hf_is_end_stream in *. rewrite !(proj1 (proj2 (proj2 (flag_bits _)))), !(proj1 (proj2 (flag_bits _))),
    !(proj1 (proj2 (proj2 (proj2 (flag_bits _))))), !(proj2 (proj2 (proj2 (proj2 (flag_bits _))))) in *.
  destruct c; cbn [headers_call_run latest sets_end_headers sets_end_stream sets_method sets_scheme sets_authority sets_path sets_status] in *;
    try exact IH.
  - destruct (flag_setters (hf_flags h) 0) as (_ & _ & A & _). destruct (flag_setters (hf_flags h) 2) as (_ & _ & B & _).
    destruct (flag_setters (hf_flags h) 3) as (_ & _ & C & _). destruct (flag_setters (hf_flags h) 5) as (_ & _ & D & _).
    cbn [hf_flags hf_set_flags] in IH. rewrite A, B, C, D in IH. exact IH.
  - destruct (flag_setters (hf_flags h) 0) as (A & _). destruct (flag_setters (hf_flags h) 2) as (B & _).
    destruct (flag_setters (hf_flags h) 3) as (C & _). destruct (flag_setters (hf_flags h) 5) as (D & _).
    cbn [hf_flags hf_set_flags] in IH. rewrite A, B, C, D in IH. exact IH.
Qed.
Lemma push_calls_ok cs : forall h, let h' := push_calls h cs in
  is_end_headers (pp_flags h') = latest psets_end_headers (is_end_headers (pp_flags h)) cs /\
  is_end_stream (pp_flags h') = latest psets_end_stream (is_end_stream (pp_flags h)) cs /\
  pt_method (pp_parts h') = latest psets_method (pt_method (pp_parts h)) cs /\
  pt_authority (pp_parts h') = latest psets_authority (pt_authority (pp_parts h)) cs /\
  pt_path (pp_parts h') = latest psets_path (pt_path (pp_parts h)) cs /\
  pt_status (pp_parts h') = latest psets_status (pt_status (pp_parts h)) cs /\
  pt_scheme (pp_parts h') = pt_scheme (pp_parts h) /\
  is_padded (pp_flags h') = is_padded (pp_flags h) /\ is_priority (pp_flags h') = is_priority (pp_flags h) /\
  pp_id h' = pp_id h /\ pp_promised h' = pp_promised h /\ pp_fields h' = pp_fields h.
Proof.
  induction cs as [|c cs IH]; intros h; cbn zeta; [repeat split|].
  change (push_calls h (c :: cs)) with (push_calls (push_call_run h c) cs). specialize (IH (push_call_run h c)). cbn zeta in IH.
  rewrite !(proj1 (proj2 (proj2 (flag_bits _)))), !(proj1 (proj2 (flag_bits _))),
    !(proj1 (proj2 (proj2 (proj2 (flag_bits _))))), !(proj2 (proj2 (proj2 (proj2 (flag_bits _))))) in *.
  destruct c; cbn [push_call_run latest psets_end_headers psets_end_stream psets_method psets_authority psets_path psets_status] in *;
    try exact IH.
  - destruct (flag_setters (pp_flags h) 0) as (_ & _ & A & _). destruct (flag_setters (pp_flags h) 2) as (_ & _ & B & _).
    destruct (flag_setters (pp_flags h) 3) as (_ & _ & C & _). destruct (flag_setters (pp_flags h) 5) as (_ & _ & D & _).
    cbn [pp_flags] in IH. rewrite A, B, C, D in IH. exact IH.
  - destruct (flag_setters (pp_flags h) 0) as (A & _). destruct (flag_setters (pp_flags h) 2) as (B & _).
    destruct (flag_setters (pp_flags h) 3) as (C & _). destruct (flag_setters (pp_flags h) 5) as (D & _).
    cbn [pp_flags] in IH. rewrite A, B, C, D in IH. exact IH.
Qed.
Lemma data_calls_ok cs : forall d, let d' := data_calls d cs in
  da_is_end_stream d' = latest dsets_end_stream (da_is_end_stream d) cs /\
  da_is_padded d' = latest dsets_padded (da_is_padded d) cs /\
  da_data d' = latest dsets_payload (da_data d) cs /\
  is_end_headers (da_flags d') = is_end_headers (da_flags d) /\ is_priority (da_flags d') = is_priority (da_flags d) /\
  da_id d' = da_id d.
Proof.
  induction cs as [|c cs IH]; intros d; cbn zeta; [repeat split|].
  change (data_calls d (c :: cs)) with (data_calls (data_call_run d c) cs). specialize (IH (data_call_run d c)). cbn zeta in IH.
  unfold da_is_end_stream, da_is_padded in *. rewrite !(proj1 (proj2 (proj2 (flag_bits _)))), !(proj1 (proj2 (flag_bits _))),
    !(proj1 (proj2 (proj2 (proj2 (flag_bits _))))), !(proj2 (proj2 (proj2 (proj2 (flag_bits _))))) in *.
  destruct c as [b| |l]; cbn [data_call_run data_set_end_stream latest dsets_end_stream dsets_padded dsets_payload da_flags da_data da_id] in *; [|..|exact IH].
  - destruct (flag_setters (da_flags d) 0) as (A & A' & _). destruct (flag_setters (da_flags d) 2) as (B & B' & _).
    destruct (flag_setters (da_flags d) 3) as (C & C' & _). destruct (flag_setters (da_flags d) 5) as (D & D' & _).
    destruct b; [rewrite A, B, C, D in IH|rewrite A', B', C', D' in IH]; exact IH.
  - destruct (flag_setters (da_flags d) 0) as (_ & _ & _ & _ & A & _). destruct (flag_setters (da_flags d) 2) as (_ & _ & _ & _ & B & _).
    destruct (flag_setters (da_flags d) 3) as (_ & _ & _ & _ & C & _). destruct (flag_setters (da_flags d) 5) as (_ & _ & _ & _ & D & _).
    rewrite A, B, C, D in IH. exact IH.
Qed.

(** With flags among the defined ones, the whole flags octet. *)
Lemma defined_flags_view f : defined_flags f -> f = flags_of (is_end_stream f) (is_end_headers f) (is_padded f) (is_priority f).
Proof. intros (a & b & c & d & ->). destruct (flags_of_view a b c d) as (A & _ & B & C & D & _). rewrite A, B, C, D. reflexivity. Qed.
Lemma data_calls_defined cs : forall d, defined_flags (da_flags d) -> defined_flags (da_flags (data_calls d cs)).
Proof.
  induction cs as [|c cs IH]; intros d D; [exact D|]. change (data_calls d (c :: cs)) with (data_calls (data_call_run d c) cs). apply IH.
  destruct D as (x & y & z & w & D). destruct (flags_of_view x y z w) as (_ & _ & _ & _ & _ & _ & S & U).
  destruct c as [b| |l]; cbn [data_call_run data_set_end_stream da_flags]; rewrite D.
  - destruct b; [rewrite S|rewrite U]; do 4 eexists; reflexivity.
  - exists x, y, true, w. destruct x, y, z, w; reflexivity.
  - do 4 eexists; reflexivity.
Qed.
Lemma headers_calls_defined cs : forall h, defined_flags (hf_flags h) -> defined_flags (hf_flags (headers_calls h cs)).
Proof.
  induction cs as [|c cs IH]; intros h D; [exact D|]. change (headers_calls h (c :: cs)) with (headers_calls (headers_call_run h c) cs). apply IH.
  destruct c; cbn [headers_call_run hf_flags hf_set_flags hf_set_parts]; try exact D;
  destruct D as (x & y & z & w & D); rewrite D; destruct (flags_of_view x y z w) as (_ & _ & _ & _ & _ & E & S & U); rewrite ?E, ?S; do 4 eexists; reflexivity.
Qed.

(** ** Errors *)
Definition expl {A} (r : res A) : Prop := forall e, r = Err e -> explained e.
Lemma expl_ok {A} (a : A) : expl (Ok a). Proof. intros e E. discriminate E. Qed.
Lemma expl_panic {A} : expl (@Panic A). Proof. intros e E. discriminate E. Qed.
Lemma expl_http {A} h : expl (@Err A (EHttp h)). Proof. intros e E. injection E as <-. destruct h; discriminate. Qed.
Lemma expl_url {A} h : expl (@Err A (EUrl h)). Proof. intros e E. injection E as <-. destruct h; discriminate. Qed.
Lemma expl_ext {A} h : expl (@Err A (EExtension h)). Proof. intros e E. injection E as <-. discriminate. Qed.
Lemma expl_into {A} : expl (@Err A EInto). Proof. intros e E. injection E as <-. discriminate. Qed.
Lemma expl_ser {A} h : expl (@Err A (ESerialize h)). Proof. intros e E. injection E as <-. discriminate. Qed.
Lemma expl_io {A} h : expl (@Err A (EIo h)). Proof. intros e E. injection E as <-. discriminate. Qed.
Lemma expl_bind {A B} (r : res A) (k : A -> res B) : expl r -> (forall a, expl (k a)) -> expl (bind r k).
Proof. intros R K e E. destruct r as [a| e'| |]; cbn in E; [exact (K a e E)|injection E as ->; apply R; reflexivity|discriminate E..]. Qed.
Lemma expl_try {S A B} st (r : res A) (k : A -> S * res B) : expl r -> (forall a, expl (snd (k a))) -> expl (snd (try_ st r k)).
Proof. intros R K e E. destruct r as [a| e'| |]; cbn in E; [exact (K a e E)|injection E as ->; apply R; reflexivity|discriminate E..]. Qed.
Lemma expl_partial {A} : expl (@partial A). Proof. apply expl_http. Qed.
#[local] Hint Resolve expl_ok expl_panic expl_http expl_url expl_ext expl_into expl_ser expl_io expl_partial : expl.
Ltac ex := repeat first [ solve [auto with expl] | apply expl_bind; [|intros []] | apply expl_bind; [|intros ?]
  | match goal with |- expl (if ?b then _ else _) => destruct b | |- expl (match ?x with _ => _ end) => destruct x end ].

Lemma expl_token f e em l : expl (@Err unit e) -> expl (parse_token_by f e em l).
Proof.
  intros E. assert (E' : expl (@Err (bytes * bytes) e)) by (intros x K; injection K as <-; apply E; reflexivity).
  unfold parse_token_by. destruct (scan f l) as [[[|x t] r]|]; [destruct em; [destruct r|]|..]; auto with expl.
Qed.
Lemma expl_next l : expl (next l). Proof. unfold next. ex. Qed.
Lemma expl_expect b e l : expl (@Err (unit * bytes) e) -> expl (expect b e l).
Proof. intros E. unfold expect. apply expl_bind; [apply expl_next|]. intros [c l']. destruct (c =? b); [apply expl_ok|exact E]. Qed.
Lemma expl_new_line l : expl (skip_new_line l).
Proof. unfold skip_new_line. apply expl_bind; [apply expl_next|]. intros [b l1]. destruct (b =? 13); [apply expl_expect, expl_http|]. ex. Qed.
Lemma expl_empty_lines l : expl (skip_empty_lines l).
Proof.
  remember (length l) as n eqn:L. assert (H : (length l <= n)%nat) by lia. clear L. revert l H.
  induction n as [|n IH]; intros [|b l] H; cbn [skip_empty_lines]; try apply expl_partial; [cbn in H; lia|].
  destruct (b =? 13); [destruct l as [|c l2]; [apply expl_partial|destruct (c =? 10); [apply IH; cbn in *; lia|apply expl_http]]|].
  destruct (b =? 10); [apply IH; cbn in *; lia|apply expl_ok].
Qed.
Lemma expl_spaces l : expl (skip_spaces l).
Proof. induction l as [|b l IH]; cbn [skip_spaces]; [apply expl_partial|]. destruct (b =? 32); [exact IH|apply expl_ok]. Qed.
Lemma expl_method_of l : expl (method_of_str l).
Proof. unfold method_of_str. ex. Qed.
Lemma expl_method l : expl (parse_method l).
Proof. unfold parse_method. apply expl_bind; [apply expl_token, expl_http|]. intros [t l1]. apply expl_bind; [apply expl_method_of|]. intros m. apply expl_ok. Qed.
Lemma expl_version l : expl (parse_version l).
Proof. unfold parse_version. apply expl_bind; [apply expl_token, expl_http|]. intros [t l1]. ex. Qed.
Lemma expl_status_bytes l : expl (status_from_bytes l).
Proof. unfold status_from_bytes. ex. Qed.
Lemma expl_status l : expl (parse_status l).
Proof. unfold parse_status. apply expl_bind; [apply expl_token, expl_http|]. intros [t l1]. apply expl_bind; [apply expl_status_bytes|]. intros m. apply expl_ok. Qed.
Lemma expl_connect u h : expl (parse_connect_by_host u h).
Proof. unfold parse_connect_by_host. destruct u. ex. Qed.
Lemma expl_scheme_of l : expl (scheme_of_str l).
Proof. unfold scheme_of_str. ex. Qed.
Lemma expl_pct l : expl (pct_decode l).
Proof.
  remember (length l) as n eqn:L. assert (H : (length l <= n)%nat) by lia. clear L. revert l H.
  induction n as [|n IH]; intros [|b l] H; cbn [pct_decode]; try apply expl_ok; [cbn in H; lia|].
  destruct (b =? 37).
  - destruct l as [|a [|c l3]]; try apply expl_partial. destruct (convert_hex a), (convert_hex c); try apply expl_url.
    apply expl_bind; [apply IH; cbn in *; lia|intros; apply expl_ok].
  - apply expl_bind; [apply IH; cbn in *; lia|intros; apply expl_ok].
Qed.
Lemma expl_decode_opt o : expl (decode_opt o).
Proof. unfold decode_opt, parse_url_token. destruct o; [|apply expl_ok]. apply expl_bind; [apply expl_bind; [apply expl_pct|]|]; intros; ex. Qed.
Lemma expl_loop hd l : forall s, expl (url_loop hd s l).
Proof.
  induction l as [|b l IH]; intros s; cbn [url_loop]; [apply expl_ok|]. apply expl_bind; [|intros; apply IH].
  unfold url_step. destruct s. ex.
Qed.
Lemma expl_build sc s : expl (url_build sc s).
Proof. unfold url_build. do 4 (apply expl_bind; [apply expl_decode_opt|intros ?]). apply expl_bind; [ex|intros ?]. do 2 (apply expl_bind; [apply expl_decode_opt|intros ?]). apply expl_ok. Qed.
Lemma expl_url_parse l : expl (url_parse l).
Proof.
  unfold url_parse. destruct l as [|b l]; [apply expl_partial|]. destruct (is_alpha b).
  - apply expl_bind.
    { unfold parse_scheme. apply expl_bind; [apply expl_token, expl_http|]. intros [t l1]. destruct (64 <? blen t); [apply expl_http|]. apply expl_bind; [apply expl_scheme_of|intros; apply expl_ok]. }
    intros [sc l1]. do 3 (apply expl_bind; [apply expl_expect, expl_url|intros [? ?]]). apply expl_bind; [apply expl_loop|intros; apply expl_build].
  - destruct (b =? 47); [|apply expl_url]. apply expl_bind; [apply expl_loop|intros; apply expl_build].
Qed.
Lemma expl_url_of m p h : expl (req_url_of m p h).
Proof.
  unfold req_url_of, req_complete_url. destruct m; try apply expl_connect;
  (apply expl_bind; [apply expl_url_parse|intros u]; apply expl_bind; [destruct (is_some (u_domain u)); [apply expl_ok|destruct (hm_get_host h); [apply expl_connect|apply expl_ok]]|intros []; apply expl_ok]).
Qed.

Lemma expl_header_line l : expl (parse_header_line l).
Proof.
  unfold parse_header_line. apply expl_bind; [apply expl_token, expl_http|intros [? ?]]. apply expl_bind; [apply expl_spaces|intros [? ?]].
  apply expl_bind; [apply expl_expect, expl_http|intros [? ?]]. apply expl_bind; [apply expl_spaces|intros [? ?]].
  apply expl_bind; [apply expl_token, expl_http|intros [? ?]]. apply expl_bind; [apply expl_new_line|intros [? ?]]. apply expl_ok.
Qed.
Lemma expl_header n : forall h l, expl (snd (parse_header_loop n h l)).
Proof.
  induction n as [|n IH]; intros h l; cbn [parse_header_loop snd]; [intros e E; discriminate E|].
  destruct l as [|b l1]; [apply expl_partial|]. destruct (b =? 13); [apply expl_bind; [apply expl_expect, expl_http|intros [? ?]; apply expl_ok]|].
  destruct (b =? 10); [apply expl_ok|]. pose proof (expl_header_line (b :: l1)) as K.
  destruct (parse_header_line (b :: l1)) as [[[nm v] r]|e| |]; [apply IH|..|intros e E; discriminate E]; [|apply expl_panic].
  intros e' E. cbn in E. injection E as <-. apply K. reflexivity.
Qed.
Lemma expl_req q l : expl (snd (req_parse q l)).
Proof.
  unfold req_parse. destruct (req_parse_buffer q l) as [q' r] eqn:E. cbn [snd].
  apply expl_bind; [|intros; apply expl_ok]. change r with (snd (q', r)). rewrite <- E. clear.
  unfold req_parse_buffer. apply expl_try; [apply expl_empty_lines|intros [? ?]]. apply expl_try; [apply expl_method|intros [? ?]].
  apply expl_try; [apply expl_spaces|intros [? ?]]. apply expl_try; [apply expl_token, expl_http|intros [? ?]].
  apply expl_try; [apply expl_spaces|intros [? ?]]. apply expl_try; [apply expl_version|intros [? ?]].
  apply expl_try; [apply expl_new_line|intros [? l7]]. unfold parse_header. pose proof (expl_header (S (length l7)) [] l7) as K.
  destruct (parse_header_loop (S (length l7)) [] l7) as [h r]. apply expl_try; [exact K|intros ?]. apply expl_try; [apply expl_url_of|intros ?]. apply expl_ok.
Qed.
Lemma expl_resp q l : expl (snd (resp_parse q l)).
Proof.
  unfold resp_parse. destruct (resp_parse_buffer q l) as [q' r] eqn:E. cbn [snd].
  apply expl_bind; [|intros; apply expl_ok]. change r with (snd (q', r)). rewrite <- E. clear.
  unfold resp_parse_buffer. apply expl_try; [apply expl_empty_lines|intros [? ?]]. apply expl_try; [apply expl_version|intros [? ?]].
  apply expl_try; [apply expl_spaces|intros [? ?]]. apply expl_try; [apply expl_status|intros [? ?]].
  apply expl_try; [apply expl_spaces|intros [? ?]]. apply expl_try; [apply expl_token, expl_http|intros [? ?]].
  apply expl_try; [apply expl_new_line|intros [? l7]]. unfold parse_header. pose proof (expl_header (S (length l7)) [] l7) as K.
  destruct (parse_header_loop (S (length l7)) [] l7) as [h r]. apply expl_try; [exact K|intros ?]. apply expl_ok.
Qed.
Lemma expl_chunk l : expl (parse_chunk_data l).
Proof.
  unfold parse_chunk_data. apply expl_bind; [apply expl_token, expl_http|intros [? ?]]. cbn zeta. destruct (usize_max1 <=? _); [apply expl_panic|].
  apply expl_bind; [apply expl_new_line|intros [? ?]]. ex.
Qed.

(** WebSocket errors: the text is empty exactly for protocol errors. *)
Definition ws_expl {A} (r : res A) : Prop := forall e, r = Err e -> (explained e <-> forall s, e <> EWs (ProtocolError s)).
Lemma ws_bind {A B} (r : res A) (k : A -> res B) : ws_expl r -> (forall a, ws_expl (k a)) -> ws_expl (bind r k).
Proof. intros R K e E. destruct r as [a| e'| |]; cbn in E; [exact (K a e E)|injection E as ->; apply R; reflexivity|discriminate E..]. Qed.
Lemma ws_ok {A} (a : A) : ws_expl (Ok a). Proof. intros e E. discriminate E. Qed.
Lemma ws_panic {A} : ws_expl (@Panic A). Proof. intros e E. discriminate E. Qed.
Lemma ws_io {A} k : ws_expl (@Err A (EIo k)). Proof. intros e E. injection E as <-. split; intros; discriminate. Qed.
Lemma ws_ext {A} k : ws_expl (@Err A (EExtension k)). Proof. intros e E. injection E as <-. split; intros; discriminate. Qed.
Lemma ws_prot {A} s : ws_expl (@Err A (EWs (ProtocolError s))). Proof. intros e E. injection E as <-. split; intros H; [destruct (H eq_refl)|destruct (H s eq_refl)]. Qed.
Lemma ws_data {A} a s : ws_expl (@Err A (EWs (DataFrameError (String a s)))). Proof. intros e E. injection E as <-. split; intros; discriminate. Qed.
Lemma ws_get n l : ws_expl (try_get n l).
Proof. unfold try_get. destruct (take_n n l) as [[? ?]|]; [apply ws_ok|apply ws_io]. Qed.
#[local] Hint Resolve ws_ok ws_panic ws_io ws_ext ws_prot ws_data ws_get : wse.
Ltac wse := repeat first [ solve [auto with wse] | apply ws_bind; [|intros [? ?]] | apply ws_bind; [|intros ?]
  | match goal with |- ws_expl (if ?b then _ else _) => destruct b | |- ws_expl (match ?x with _ => _ end) => destruct x end ].
Lemma ws_header_expl l : ws_expl (read_header l).
Proof. unfold read_header, read_len, read_mask. cbn zeta. wse. Qed.
Lemma ws_dataframe_expl l : ws_expl (read_dataframe l).
Proof. unfold read_dataframe. apply ws_bind; [apply ws_header_expl|intros [? ?]]. unfold read_dataframe_body. wse. Qed.
Lemma ws_limit_expl n l : ws_expl (read_dataframe_with_limit n l).
Proof. unfold read_dataframe_with_limit. apply ws_bind; [apply ws_header_expl|intros [? ?]]. unfold read_dataframe_body. wse. Qed.
Lemma ws_collect fs : forall b d, ws_expl (collect_frames b fs d).
Proof. induction fs as [|f fs IH]; intros b d; cbn [collect_frames]; [apply ws_ok|]. destruct (negb b && _); [apply ws_prot|]. destruct (df_rsv f) as [[[] []] []]; try apply ws_prot. apply IH. Qed.
Lemma ws_message_expl fs : ws_expl (msg_from_dataframes fs).
Proof. unfold msg_from_dataframes. destruct fs; [apply ws_prot|]. apply ws_bind; [apply ws_collect|intros ?]. unfold build_message. wse. Qed.
Lemma ws_owned_expl fs : ws_expl (owned_from_dataframes fs).
Proof. unfold owned_from_dataframes. apply ws_bind; [apply ws_message_expl|intros; apply ws_ok]. Qed.
Lemma ws_write_expl d k : ws_expl (write_to d k).
Proof. unfold write_to. cbn zeta. apply ws_bind; [unfold write_header; wse|intros ?]. wse. Qed.
