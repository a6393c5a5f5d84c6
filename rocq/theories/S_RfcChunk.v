(** Chunked bodies that are received and sent on (C128; RFC 9112 section 7.1). *)
From Coq Require Import Ascii String NArith ZArith Bool List.
From Verif Require Import Base M_Std M_Helper S_Http1 S_Http1Api S_Hex S_Url S_Rfc9112 S_RfcBody.
Import ListNotations.
Local Open Scope N_scope.

(** The numeral that is meant to be written: small letters and no zero in front. *)
Definition short_num (ds : bytes) : Prop :=
  Forall (fun b => In b (str "0123456789abcdef")) ds /\ (ds = str "0" \/ hd_error ds <> Some 48).
Definition short_sizes (b : chunked) : Prop := Forall (fun c => short_num (ck_size c)) (cd_chunks b) /\ cd_zeros b = 0%nat.

(** A relay: it takes the blocks with parse_chunk_data until the empty one, and writes each with encode_chunk_data; the
    result is what it writes and what it has not taken. *)
Definition passed_on (l : bytes) : res (bytes * bytes) :=
  ' (ds, r) <- read_chunks (S (length l)) l ;; Ok (concat (map encode_chunk_data ds) ++ encode_chunk_data [], r).
