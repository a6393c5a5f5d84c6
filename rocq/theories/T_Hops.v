(** C129: HTTP/2 connections through intermediaries. *)
From Coq Require Import Ascii String NArith ZArith Lia Bool List.
From Verif Require Import Base P_Base S_Utf8 M_Std M_Helper M_Header M_Url M_Http1 M_Hpack M_Frame M_H2 M_Build S_Http1 S_Http1Api S_Map S_Hex S_Url S_Hpack S_HpackApi
  S_Frame S_H2Api S_Build S_Stream S_Session
  P_Msg P_Map P_Url P_UrlForm P_HpackSync P_H2Req P_Build3 P_Build4 P_Stream T_Frame T_H2 P_Session M_Ws S_Ws S_WsApi S_WsTalk P_Ws P_WsTalk T_Stream P_Near S_Hops P_Hops.
Import ListNotations.
Local Open Scope N_scope.

(** A relay that has received frames that tell the items [l] (cut in whatever way), and sends on what it has received over a connection that can carry
    [l], is heard to tell [l]. *)
Theorem C129_relay : forall l got h, Forall2 item_seen l got -> hop_fit l h ->
  exists got', crossed h (items_of (concat got)) (concat got') /\ Forall2 item_seen l got'.
Proof. intros l got h V F. exact (proj2 (relayed l got h V F)). Qed.
Print Assumptions C129_relay.
(** Any number of connections in a row, with their own frame sizes, limits and tables: the last receiver gets every item, in order, as if the first
    sender were its neighbour (C82). *)
Theorem C129_arrives : forall hs l, hs <> [] -> Forall (hop_fit l) hs -> exists got, carried hs l (concat got) /\ Forall2 item_seen l got.
Proof. exact carried_all. Qed.
Print Assumptions C129_arrives.
(** And nothing else comes out. *)
Theorem C129_only : forall hs l fs, Forall (hop_fit l) hs -> carried hs l fs -> exists got, fs = concat got /\ Forall2 item_seen l got.
Proof. exact carried_seen. Qed.
Print Assumptions C129_only.
(** Stream by stream: the octets and the end of every stream are those that were sent first, however the relays cut the data. *)
Theorem C129_streams : forall hs l fs id, Forall (hop_fit l) hs -> carried hs l fs ->
  stream_octets id fs = sent_octets id l /\ stream_ended id fs = existsb (item_ends id) l.
Proof.
  intros hs l fs id H K. destruct (carried_seen hs l fs H K) as (got & -> & V). exact (C82_streams l got id V).
Qed.
Print Assumptions C129_streams.

(** The conditions are met: the session of C82 over three connections with other frame sizes and tables. *)
Definition three_hops : list hop :=
  [mkHop 16384 4096 hi_new hi_new; mkHop 20000 65536 (hi_with_size 8000) (hi_with_size 8000); mkHop 5000 4096 hi_new hi_new].
Example C129_met : Forall (hop_fit sample_session) three_hops /\ exists fs, carried three_hops sample_session fs /\ stream_octets 1 fs = str "abcdef".
Proof.
  assert (F : Forall (hop_fit sample_session) three_hops).
  { destruct C82_nonvacuous as (G & _).
    assert (M : forall max L, 5000 <= max -> 1000 <= L -> Forall (item_legal max L) sample_session).
    { intros max L HM HL. rewrite Forall_forall in *. intros i Hi. destruct (G i Hi) as (A & B & C).
      assert (T : 5 * total_size (item_fields i) <= 5000 /\ total_size (item_fields i) <= 1000).
      { assert (E : forallb (fun i => (5 * total_size (item_fields i) <=? 5000) && (total_size (item_fields i) <=? 1000)) sample_session = true) by (vm_compute; reflexivity).
        rewrite forallb_forall in E. specialize (E i Hi). apply andb_true_iff in E as [E1 E2]. split; apply N.leb_le; assumption. }
      split; [lia|]. split; [lia|exact C]. }
    apply Forall_cons; [|apply Forall_cons; [|apply Forall_cons; [|apply Forall_nil]]]; (split; [cbn; lia|]; split; [apply M; cbn; lia|]).
    1, 3: apply fresh_connection; [vm_compute; reflexivity|vm_compute; reflexivity|cbn; lia].
    cbn [hp_sender hp_receiver]. exists 8000, [], []. split; [reflexivity|]. cbn [sent concat app].
    assert (S : Forall sendable (concat (map item_fields sample_session))) by (apply sendableb_ok; vm_compute; reflexivity).
    assert (N : h2_names (concat (map item_fields sample_session))) by (apply h2_charb_ok; vm_compute; reflexivity).
    split; [exact S|]. split; [exact N|]. apply few_near; [|cbn; lia].
    cbn [sent concat app]. rewrite app_nil_r. apply h2_pool; assumption. }
  split; [exact F|]. destruct (carried_all three_hops sample_session ltac:(discriminate) F) as (got & A & V).
  exists (concat got). split; [exact A|]. rewrite (proj1 (C82_streams _ _ 1 V)). reflexivity.
Qed.
(** A relay that gives the frames themselves to Frame::encode does not work: the request arrives without its pseudo header fields. *)
Theorem C129_frames_refuted : exists l fs te w td fs', hop_fit l (mkHop 16384 4096 hi_new hi_new) /\ crossed (mkHop 16384 4096 hi_new hi_new) l [fs] /\
  frame_encode 16384 hi_new fs = Ok (te, w) /\ reads 4096 hi_new w td [fs'] [] /\ fs' <> fs /\ items_of [fs] = l /\ items_of [fs'] = [].
Proof.
  set (l := [IRequest 1 MGet (str "h") ScHttps (str "/") [(str "a", str "b")] true]).
  assert (F : hop_fit l (mkHop 16384 4096 hi_new hi_new)).
  { split; [cbn; lia|]. split.
    - apply Forall_cons; [|apply Forall_nil]. split; [vm_compute; discriminate|]. split; [vm_compute; discriminate|].
      split; [reflexivity|]. split; [vm_compute; tauto|]. split; [apply lg_https|]. split; [apply utf8_valid_iff; reflexivity|]. split; [apply utf8_valid_iff; reflexivity|].
      split; [apply h2_charb_ok; vm_compute; reflexivity|]. split; [repeat constructor; intros []|]. repeat constructor. discriminate.
    - apply fresh_connection; [vm_compute; reflexivity|vm_compute; reflexivity|cbn; lia]. }
  exists l. eexists. eexists. eexists. eexists. eexists. split; [exact F|]. split; [|split; [|split; [|split; [|split]]]].
  - eexists. eexists. eexists. split; [vm_compute; reflexivity|]. eapply rd_frame; [vm_compute; reflexivity|]. apply rd_none.
  - vm_compute. reflexivity.
  - eapply rd_frame; [vm_compute; reflexivity|]. apply rd_none.
  - discriminate.
  - vm_compute. reflexivity.
  - vm_compute. reflexivity.
Qed.
Print Assumptions C129_frames_refuted.
