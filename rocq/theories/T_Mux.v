(** C140: what arrives on a stream of HTTP/2 does not depend on the order in which the streams are sent on. *)
From Coq Require Import Ascii String NArith ZArith Lia Bool List ZifyBool ZifyNat ZifyN.
From Verif Require Import Base P_Base S_Utf8 M_Std M_Header S_Url M_Url M_Http1 S_Http1 S_Http1Api M_Hpack S_Hpack S_HpackApi P_HpackSync M_Frame M_H2 S_H2Api S_Session P_Session T_Stream S_Packets P_Packets S_Net P_Net T_Net S_Mux P_Mux.
Import ListNotations.
Local Open Scope N_scope.

(** Any number of streams, each with its items, sent in any order on a new connection whose tables have at most [m] octets: all is sent, and
    over any packets each stream gets what was sent on it, in its order, whatever the others do (though all share one compression table). *)
Theorem C140_schedules_partial : forall max L k m ids ps l, 0 < max < 16777216 -> m < 66 * k ->
  NoDup ids -> Forall2 (fun id p => Forall (fun i => item_stream i = id) p) ids ps -> Forall (Forall (item_fit max L k)) ps -> schedule ps l ->
  exists te td w got, h2_send max (hi_with_size m) l = Ok (te, w) /\ (bytes_ok w -> carries (h2_step L) (hi_with_size m) w got td) /\
    Forall2 (fun id p => (exists seen, Forall2 item_seen p seen /\ on_stream id got = concat seen) /\
      stream_octets id got = sent_octets id p /\ stream_ended id got = existsb (item_ends id) p) ids ps.
Proof.
  intros max L k m ids ps l M K ND F FT SC. pose proof (schedule_items ps l _ SC FT) as Fl. pose proof (fit_connection max L k m l Fl K) as C.
  destruct (fun Q => C135_http2 max L l (hi_with_size m) (hi_with_size m) [] M Q C) as (te & td & w & got & E & V & _ & Ca). { eapply Forall_impl; [|exact Fl]. intros i [A _]. exact A. }
  exists te, td, w, (concat got). split; [exact E|]. split; [exact Ca|]. pose proof (schedule_streams ps l SC ids ND F) as SS. clear - V SS.
  induction SS as [|id p ids ps Q SS IH]; constructor; [|exact IH]. destruct (seen_on id l got V) as (seen & S & O). rewrite Q in S.
  split; [exists seen; auto|]. destruct (C82_streams p seen id S) as [A B]. rewrite octets_on, ended_on, O. auto.
Qed.
Print Assumptions C140_schedules_partial.
(** For tables below 2112 octets there is no condition on the sizes of the fields, ... *)
Theorem C140_small_tables_partial : forall max L m ids ps l, 0 < max < 16777216 -> m < 2112 ->
  NoDup ids -> Forall2 (fun id p => Forall (fun i => item_stream i = id) p) ids ps -> Forall (Forall (item_fit max L 0)) ps -> schedule ps l ->
  exists te td w got, h2_send max (hi_with_size m) l = Ok (te, w) /\ (bytes_ok w -> carries (h2_step L) (hi_with_size m) w got td) /\
    Forall2 (fun id p => exists seen, Forall2 item_seen p seen /\ on_stream id got = concat seen) ids ps.
Proof.
  intros max L m ids ps l M K ND F FT SC.
  assert (FT' : Forall (Forall (item_fit max L 32)) ps).
  { eapply Forall_impl; [|exact FT]. intros p Fp. eapply Forall_impl; [|exact Fp]. intros i [A Fi]. split; [exact A|]. eapply Forall_impl; [|exact Fi].
    intros f (B & D & _). split; [exact B|]. split; [exact D|]. unfold size_of. lia. }
  destruct (C140_schedules_partial max L 32 m ids ps l M ltac:(lia) ND F FT' SC) as (te & td & w & got & E & Ca & V). exists te, td, w, got. split; [exact E|]. split; [exact Ca|].
  clear - V. induction V as [|id p ids ps [A _] V IH]; constructor; assumption.
Qed.
Print Assumptions C140_small_tables_partial.
(** ... and two orders of the same streams, though other octets are sent, give each stream the same octets and the same end. *)
Theorem C140_orders_partial : forall max L k m ids ps l l2, 0 < max < 16777216 -> m < 66 * k ->
  NoDup ids -> Forall2 (fun id p => Forall (fun i => item_stream i = id) p) ids ps -> Forall (Forall (item_fit max L k)) ps -> schedule ps l -> schedule ps l2 ->
  exists te td w got te2 td2 w2 got2, h2_send max (hi_with_size m) l = Ok (te, w) /\ h2_send max (hi_with_size m) l2 = Ok (te2, w2) /\
    (bytes_ok w -> carries (h2_step L) (hi_with_size m) w got td) /\ (bytes_ok w2 -> carries (h2_step L) (hi_with_size m) w2 got2 td2) /\
    forall id, In id ids -> stream_octets id got = stream_octets id got2 /\ stream_ended id got = stream_ended id got2.
Proof.
  intros max L k m ids ps l l2 M K ND F FT SC SC2.
  destruct (C140_schedules_partial max L k m ids ps l M K ND F FT SC) as (te & td & w & got & E & Ca & V).
  destruct (C140_schedules_partial max L k m ids ps l2 M K ND F FT SC2) as (te2 & td2 & w2 & got2 & E2 & Ca2 & V2).
  exists te, td, w, got, te2, td2, w2, got2. repeat (split; [assumption|]). clear - V V2. intros id I. revert V2. induction V as [|id1 p ids ps (_ & A & B) V IH]; intros V2; [destruct I|].
  inversion V2 as [|? ? ? ? (_ & A2 & B2) V3]; subst. destruct I as [->|I]; [rewrite A, A2, B, B2; auto|apply IH; assumption].
Qed.
Print Assumptions C140_orders_partial.

(** Refuted for the default table of 4096 octets and small fields: an interim and a final response on stream 1 and a response on stream 3
    all arrive when stream 1 is sent first; when stream 3 is sent between the two responses of stream 1, the final one cannot be decoded and the connection ends. *)
Definition tiny (i : nat) : hfield := ([97 + N.of_nat (Nat.div i 26); 97 + N.of_nat (Nat.modulo i 26)], []).
Definition interim1 : item := IResponse 1 100 (map tiny (seq 0 40)) false.
Definition final1 : item := IResponse 1 200 [tiny 0] true.
Definition whole3 : item := IResponse 3 200 (map tiny (seq 40 40)) true.
Fixpoint nodupb (l : list bytes) : bool := match l with [] => true | x :: r => negb (existsb (beq x) r) && nodupb r end.
Lemma nodupb_ok l : nodupb l = true -> NoDup l.
Proof.
  induction l as [|x r IH]; cbn; [constructor|]. intros H. apply andb_prop in H as [A B]. constructor; [|apply IH, B]. intros I. apply negb_true_iff in A.
  assert (existsb (beq x) r = true) by (apply existsb_exists; exists x; split; [exact I|apply beq_eq; reflexivity]). congruence.
Qed.
Theorem C140_default_table_refuted : exists ps l l2 w w2 te te2 got td got2 e,
  Forall (Forall (item_fit 16384 4096 0)) ps /\ Forall2 (fun id p => Forall (fun i => item_stream i = id) p) [1; 3] ps /\ schedule ps l /\ schedule ps l2 /\
  h2_send 16384 hi_new l = Ok (te, w) /\ feed (h2_step 4096) (Open hi_new []) [w] = (got, Open td []) /\ length got = 3%nat /\ stream_ended 1 got = true /\
  h2_send 16384 hi_new l2 = Ok (te2, w2) /\ feed (h2_step 4096) (Open hi_new []) [w2] = (got2, Closed (Err e)) /\ stream_ended 1 got2 = false.
Proof.
  exists [[interim1; final1]; [whole3]], [interim1; final1; whole3], [interim1; whole3; final1]. do 8 eexists.
  split; [|split; [|split; [|split; [|split; [|split; [|split; [|split; [|split; [|split]]]]]]]]].
  - assert (Q : forall id c fs es, (5 * total_size (response_fields c fs) <=? 16384) && (total_size (response_fields c fs) <=? 4096) && (id <? 2147483648) && ((100 <=? c) && (c <=? 999)) &&
      (forallb sendableb (response_fields c fs) && forallb (fun f => forallb h2_charb (fst f)) (response_fields c fs)) &&
      (forallb (fun f => forallb h2_charb (fst f)) fs && nodupb (map fst fs) && forallb (fun f => match fst f with 58 :: _ => false | _ => true end) fs) = true ->
      item_fit 16384 4096 0 (IResponse id c fs es)).
    { intros id c fs es H. apply andb_prop in H as [H R]. apply andb_prop in H as [H S]. apply andb_prop in H as [H C]. apply andb_prop in H as [H D]. apply andb_prop in H as [A B].
      apply andb_prop in S as [S1 S2]. apply andb_prop in R as [R R3]. apply andb_prop in R as [R1 R2]. apply andb_prop in C as [C1 C2].
      split.
      - split; [apply N.leb_le, A|]. split; [apply N.leb_le, B|]. split; [apply N.ltb_lt, D|]. split; [split; apply N.leb_le; assumption|].
        split; [apply h2_charb_ok, R1|]. split; [apply nodupb_ok, R2|]. apply Forall_forall. intros f I. rewrite forallb_forall in R3. specialize (R3 f I). cbn in R3.
        intros E. destruct (fst f) as [|b r]; [discriminate E|]. cbn in E. injection E as ->. discriminate R3.
      - apply sendableb_ok in S1. apply h2_charb_ok in S2. apply Forall_forall. intros f I. unfold h2_names in S2. rewrite Forall_forall in S1, S2. split; [apply S1, I|]. split; [apply S2, I|lia]. }
    repeat apply Forall_cons; try apply Forall_nil; apply Q; vm_compute; reflexivity.
  - repeat constructor.
  - apply (sch_next [] _ _ [_]), (sch_next [] _ _ [_]), (sch_next [_] _ _ []), sch_done. repeat constructor.
  - apply (sch_next [] _ _ [_]), (sch_next [_] _ _ []), (sch_next [] _ _ [_]), sch_done. repeat constructor.
  - vm_compute. reflexivity.
  - vm_compute. reflexivity.
  - reflexivity.
  - vm_compute. reflexivity.
  - vm_compute. reflexivity.
  - vm_compute. reflexivity.
  - vm_compute. reflexivity.
Qed.
Print Assumptions C140_default_table_refuted.

(** ** Two streams and the connection, in an order in which they alternate. *)
Definition stream1 : list item := [IRequest 1 MGet (str "example.com") ScHttps (str "/a") [(str "x-a", str "1")] false; IData 1 (str "abc") false; IData 1 (str "def") true].
Definition stream3 : list item := [IRequest 3 MPost (str "example.com") ScHttps (str "/b") [(str "x-a", str "1")] false; IData 3 (str "xyz") true].
Definition stream0 : list item := [IPing (mkPing false [1; 2; 3; 4; 5; 6; 7; 8])].
Definition mixed : list item :=
  [hd IAck stream1; hd IAck stream3; IData 1 (str "abc") false; hd IAck stream0; IData 3 (str "xyz") true; IData 1 (str "def") true].
Example C140_mixed : schedule [stream1; stream3; stream0] mixed /\ Forall2 (fun id p => Forall (fun i => item_stream i = id) p) [1; 3; 0] [stream1; stream3; stream0].
Proof.
  split; [|repeat constructor].
  apply (sch_next [] _ _ [_; _]), (sch_next [_] _ _ [_]), (sch_next [] _ _ [_; _]), (sch_next [_; _] _ _ []), (sch_next [_] _ _ [_]), (sch_next [] _ _ [_; _]), sch_done.
  repeat constructor.
Qed.
Example C140_fit : Forall (Forall (item_fit 16384 4096 32)) [stream1; stream3; stream0].
Proof.
  assert (U : forall s, utf8_valid s = true -> is_utf8 s) by (intros s; apply utf8_valid_iff).
  assert (R : regular [(str "x-a", str "1")]).
  { split; [apply h2_charb_ok; vm_compute; reflexivity|]. split; [repeat constructor; intros []|]. repeat constructor. discriminate. }
  assert (Q : forall m p, forallb sendableb (request_fields m (str "example.com") ScHttps p [(str "x-a", str "1")]) = true ->
    forallb (fun f => forallb h2_charb (fst f)) (request_fields m (str "example.com") ScHttps p [(str "x-a", str "1")]) = true ->
    Forall (fun f => sendable f /\ Forall h2_char (fst f) /\ 32 <= size_of f) (request_fields m (str "example.com") ScHttps p [(str "x-a", str "1")])).
  { intros m p A B. apply sendableb_ok in A. apply h2_charb_ok in B. apply Forall_forall. intros f I. rewrite Forall_forall in A, B. repeat split; [apply A, I|apply A, I|apply A, I|apply A, I|apply B, I|unfold size_of; lia]. }
  repeat apply Forall_cons; try apply Forall_nil; (split; [split; [vm_compute; discriminate|]; split; [vm_compute; discriminate|]|]); try apply Forall_nil.
  - split; [reflexivity|]. split; [cbn; tauto|]. split; [constructor|]. split; [apply U; vm_compute; reflexivity|]. split; [apply U; vm_compute; reflexivity|exact R].
  - apply Q; vm_compute; reflexivity.
  - split; reflexivity.
  - split; reflexivity.
  - split; [reflexivity|]. split; [cbn; tauto|]. split; [constructor|]. split; [apply U; vm_compute; reflexivity|]. split; [apply U; vm_compute; reflexivity|exact R].
  - apply Q; vm_compute; reflexivity.
  - split; reflexivity.
  - reflexivity.
Qed.
