(** Model of src/url/scheme.rs, src/url/url.rs and src/url/builder.rs. *)
From Coq Require Import Ascii String NArith ZArith Bool List.
From Verif Require Import Base M_Std M_Helper.
Import ListNotations.
Local Open Scope N_scope.

(** ** scheme.rs *)
(** 18-27 *)
Inductive scheme :=
| ScNone | ScHttp | ScHttps | ScWs | ScWss | ScFtp
| ScExt (s : bytes).

(** 17: derived PartialEq. *)
Definition scheme_eqb (a b : scheme) : bool :=
  match a, b with
  | ScNone, ScNone | ScHttp, ScHttp | ScHttps, ScHttps
  | ScWs, ScWs | ScWss, ScWss | ScFtp, ScFtp => true
  | ScExt s, ScExt t => beq s t
  | _, _ => false
  end.

(** 71-81: as_str, and 119-123 Display. *)
Definition scheme_str (s : scheme) : bytes :=
  match s with
  | ScHttp => str "http" | ScHttps => str "https"
  | ScWs => str "ws" | ScWss => str "wss" | ScFtp => str "ftp"
  | ScExt s => s | ScNone => []
  end.
(** 83-88: is_none. *)
Definition scheme_is_none (s : scheme) : bool := match s with ScNone => true | _ => false end.

(** 135-150: TryFrom<&str>. *)
Definition scheme_of_str (v : bytes) : res scheme :=
  if 64 <? blen v then Err (EUrl UrlInvalid)
  else if beq v (str "http") then Ok ScHttp
  else if beq v (str "https") then Ok ScHttps
  else if beq v (str "ws") then Ok ScWs
  else if beq v (str "wss") then Ok ScWss
  else if beq v (str "ftp") then Ok ScFtp
  else Ok (ScExt v).
(** std: u8::to_ascii_uppercase (FromStr, 153-158, is in M_Text.v). *)
Definition ascii_upper (b : N) : N := if (97 <=? b) && (b <=? 122) then b - 32 else b.
(** 63-69: parse_scheme, MAX_SCHEME_LEN = 64. *)
Definition parse_scheme (l : bytes) : res (scheme * bytes) :=
  ' (t, l1) <- parse_scheme_token l ;;
  if 64 <? blen t then Err (EHttp SchemeTooLong)
  else s <- scheme_of_str t ;; Ok (s, l1).
(** 125-132: serialize. *)
Definition scheme_serialize (s : scheme) : res bytes :=
  match s with ScNone => Err (ESerialize "scheme") | _ => Ok (scheme_str s) end.

(** ** url.rs *)
(** 21-29: struct Url; Strings are their UTF-8 bytes, [port] is a u16. *)
Record url := mkUrl {
  u_scheme : scheme;
  u_path : bytes;
  u_user : option bytes;
  u_pass : option bytes;
  u_domain : option bytes;
  u_port : option N;
  u_query : option bytes }.

(** 34-44: new; 32 DEFAULT_PATH. *)
Definition default_path : bytes := str "/".
Definition url_new : url := mkUrl ScNone default_path None None None None None.

(** 51-73: merge. [self.f != other.f] only avoids a redundant write. *)
Definition merge_opt {A} (a b : option A) : option A := match b with Some _ => b | None => a end.
Definition url_merge (a b : url) : url :=
  mkUrl (if negb (scheme_eqb (u_scheme b) ScNone) && negb (scheme_eqb (u_scheme a) (u_scheme b))
         then u_scheme b else u_scheme a)
        (if negb (beq (u_path b) default_path) && negb (beq (u_path a) (u_path b))
         then u_path b else u_path a)
        (merge_opt (u_user a) (u_user b))
        (merge_opt (u_pass a) (u_pass b))
        (merge_opt (u_domain a) (u_domain b))
        (match u_port b with
         | Some p => if p =? 0 then u_port a else Some p
         | None => u_port a
         end)
        (merge_opt (u_query a) (u_query b)).

(** 75-103: parse_url_token with can_convert = true (its only use). *)
Fixpoint pct_decode (l : bytes) : res bytes :=
  match l with
  | [] => Ok []
  | b :: l1 =>
    if b =? 37 then
      match l1 with
      | [] => partial
      | a :: l2 =>
        match l2 with
        | [] => partial
        | c :: l3 =>
          match convert_hex a, convert_hex c with
          | Some t, Some u => r <- pct_decode l3 ;; Ok (t * 16 + u :: r)
          | _, _ => Err (EUrl UrlInvalid)
          end
        end
      end
    else r <- pct_decode l1 ;; Ok (b :: r)
  end.
Definition parse_url_token (l : bytes) : res bytes :=
  r <- pct_decode l ;; if utf8_valid r then Ok r else Err (EUrl UrlInvalid).

(** 105-213: the variables of the scanning loop of parse. *)
Record ust := mkUst {
  s_user : option bytes;
  s_pass : option bytes;
  s_domain : option bytes;
  s_port : option bytes;
  s_path : option bytes;
  s_query : option bytes;
  s_slash : bool;        (* is_first_slash *)
  s_val : bytes }.

Definition is_some {A} (o : option A) : bool := match o with Some _ => true | None => false end.

(** 140-160: end of the buffer. *)
Definition url_finish (has_domain : bool) (s : ust) : ust :=
  let '(mkUst us pw dom po pa q fs v) := s in
  if is_some pa then mkUst us pw dom po pa (Some v) fs []
  else if is_some dom then
    if negb fs then mkUst us pw dom (Some v) pa q fs []
    else mkUst us pw dom po (Some v) q fs []
  else if has_domain then mkUst us pw (Some v) po pa q fs []
  else mkUst us pw dom po (Some v) q fs [].

(** 162-210: one byte. *)
Definition url_step (has_domain : bool) (s : ust) (b : N) : res ust :=
  let '(mkUst us pw dom po pa q fs v) := s in
  if b =? 58 then
    if negb fs then
      if is_some dom then Err (EUrl UrlInvalid)
      else Ok (mkUst us pw (Some v) po pa q fs [])
    else Ok (mkUst us pw dom po pa q fs (v ++ [b]))
  else if b =? 64 then
    if is_some dom then Ok (mkUst dom (Some v) None po pa q fs [])
    else Err (EUrl UrlInvalid)
  else if b =? 47 then
    if negb fs then
      if is_some dom then Ok (mkUst us pw dom (Some v) pa q true [b])
      else Ok (mkUst us pw (Some v) po pa q true [b])
    else Ok (mkUst us pw dom po pa q fs (v ++ [b]))
  else if b =? 63 then
    if negb fs then
      if negb (is_some dom) && has_domain then Ok (mkUst us pw (Some v) po pa q fs [])
      else Ok s
    else if is_some pa then Ok (mkUst us pw dom po pa q fs (v ++ [b]))
    else Ok (mkUst us pw dom po (Some v) q fs [])
  else if negb (is_token b) then Err (EUrl UrlInvalid)
  else Ok (mkUst us pw dom po pa q fs (v ++ [b])).

(** 139-213: the loop. *)
Fixpoint url_loop (has_domain : bool) (s : ust) (l : bytes) : res ust :=
  match l with
  | [] => Ok (url_finish has_domain s)
  | b :: l' => s' <- url_step has_domain s b ;; url_loop has_domain s' l'
  end.

(** 217-225, 240-242: decode an optional component. *)
Definition decode_opt (o : option bytes) : res (option bytes) :=
  match o with
  | None => Ok None
  | Some v => r <- parse_url_token v ;; Ok (Some r)
  end.

(** 244-253 *)
Definition default_port (s : scheme) : N :=
  match s with
  | ScHttp => 80 | ScHttps => 443 | ScWs => 80 | ScWss => 443 | ScFtp => 21
  | _ => 0
  end.

(** 215-256: build the Url. *)
Definition url_build (sc : scheme) (s : ust) : res url :=
  us <- decode_opt (s_user s) ;;
  pw <- decode_opt (s_pass s) ;;
  dom <- decode_opt (s_domain s) ;;
  po <- decode_opt (s_port s) ;;
  port <- match po with
          | None => Ok None
          | Some p => match parse_uint 65536 p with
                      | Some n => Ok (Some n)
                      | None => Err (EUrl UrlInvalid)
                      end
          end ;;
  pa <- decode_opt (s_path s) ;;
  q <- decode_opt (s_query s) ;;
  Ok (mkUrl sc (match pa with Some p => p | None => default_path end) us pw dom
            (match port with Some n => Some n | None => Some (default_port sc) end) q).

(** 105-256: parse. FromStr and the TryFrom impls (374-401) all call it. *)
Definition ust0 (fs : bool) : ust := mkUst None None None None None None fs [].
Definition url_parse (l : bytes) : res url :=
  match l with
  | [] => partial
  | b :: _ =>
    if is_alpha b then
      ' (sc, l1) <- parse_scheme l ;;
      ' (_, l2) <- expect 58 (EUrl UrlInvalid) l1 ;;
      ' (_, l3) <- expect 47 (EUrl UrlInvalid) l2 ;;
      ' (_, l4) <- expect 47 (EUrl UrlInvalid) l3 ;;
      s <- url_loop true (ust0 false) l4 ;;
      url_build sc s
    else if b =? 47 then
      s <- url_loop false (ust0 true) l ;;
      url_build ScNone s
    else Err (EUrl UrlInvalid)
  end.

(** 258-272: url_encode. *)
Definition url_encode_byte (b : N) : bytes :=
  if is_not_uritrans b then [b] else [37; to_hex (b / 16); to_hex (b mod 16)].
Definition url_encode (v : bytes) : bytes := utf8_lossy (concat (map url_encode_byte v)).

(** 274-301: url_decode. *)
Fixpoint url_decode_bytes (l : bytes) : res bytes :=
  match l with
  | [] => Ok []
  | b :: l1 =>
    if b =? 37 then
      match l1 with
      | a :: c :: l3 =>
        match convert_hex a, convert_hex c with
        | Some t, Some u => r <- url_decode_bytes l3 ;; Ok (t * 16 + u :: r)
        | _, _ => Err (EUrl UrlCodeInvalid)
        end
      | _ => Err (EUrl UrlCodeInvalid)
      end
    else r <- url_decode_bytes l1 ;; Ok (b :: r)
  end.
Definition url_decode (l : bytes) : res bytes := r <- url_decode_bytes l ;; Ok (utf8_lossy r).

(** 304-312, 356-362: the printed port. *)
Definition port_suffix (u : url) : bytes :=
  if scheme_eqb (u_scheme u) ScNone then []
  else match u_port u with
       | None => []
       | Some p =>
         if scheme_eqb (u_scheme u) ScHttp && (p =? 80) then []
         else if scheme_eqb (u_scheme u) ScHttps && (p =? 443) then []
         else 58 :: dec_print p
       end.
(** 303-322: get_authority. *)
Definition url_authority (u : url) : bytes :=
  match u_domain u with Some d => d ++ port_suffix u | None => [] end.
(** 328-338: get_connect_url. *)
Definition url_connect (u : url) : option bytes :=
  match u_domain u, u_port u with
  | Some d, Some p => Some (d ++ 58 :: dec_print p)
  | _, _ => None
  end.

(** 341-372: Display. *)
Definition opt_bytes (o : option bytes) : bytes := match o with Some v => v | None => [] end.
Definition url_print (u : url) : bytes :=
  (if scheme_eqb (u_scheme u) ScNone then [] else scheme_str (u_scheme u) ++ str "://") ++
  (if is_some (u_user u) || is_some (u_pass u)
   then url_encode (opt_bytes (u_user u)) ++ 58 :: url_encode (opt_bytes (u_pass u)) ++ [64]
   else []) ++
  opt_bytes (u_domain u) ++
  port_suffix u ++
  url_encode (u_path u) ++
  match u_query u with Some q => 63 :: url_encode q | None => [] end.

(** ** builder.rs 20-125: the Builder threads a WebResult<Url>; only [scheme]
    can fail. *)
Inductive url_op :=
| OpScheme (v : bytes) | OpUser (v : bytes) | OpPass (v : bytes) | OpDomain (v : bytes)
| OpPort (p : N) | OpPath (v : bytes) | OpQuery (v : bytes).
Definition url_op_apply (u : url) (o : url_op) : res url :=
  let '(mkUrl sc pa us pw dom po q) := u in
  match o with
  | OpScheme v => s <- scheme_of_str v ;; Ok (mkUrl s pa us pw dom po q)
  | OpUser v => Ok (mkUrl sc pa (Some v) pw dom po q)
  | OpPass v => Ok (mkUrl sc pa us (Some v) dom po q)
  | OpDomain v => Ok (mkUrl sc pa us pw (Some v) po q)
  | OpPort p => Ok (mkUrl sc pa us pw dom (Some p) q)
  | OpPath v => Ok (mkUrl sc v us pw dom po q)
  | OpQuery v => Ok (mkUrl sc pa us pw dom po (Some v))
  end.
Definition url_builder (ops : list url_op) : res url :=
  fold_left (fun r o => u <- r ;; url_op_apply u o) ops (Ok url_new).
