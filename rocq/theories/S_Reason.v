(** The status codes registered by IANA with the phrases of RFC 7231, 7538,
    4918, 5842, 3229, 6585, 7725, 8297, 8470, 2295, 2774, 2324 (C10). *)
From Coq Require Import Ascii String NArith Bool List.
From Verif Require Import Base.
Import ListNotations.
Local Open Scope N_scope.

Definition iana_reasons : list (N * string) := [
  (100, "Continue"%string);
  (101, "Switching Protocols"%string);
  (102, "Processing"%string);
  (103, "Early Hints"%string);
  (200, "OK"%string);
  (201, "Created"%string);
  (202, "Accepted"%string);
  (203, "Non-Authoritative Information"%string);
  (204, "No Content"%string);
  (205, "Reset Content"%string);
  (206, "Partial Content"%string);
  (207, "Multi-Status"%string);
  (208, "Already Reported"%string);
  (226, "IM Used"%string);
  (300, "Multiple Choices"%string);
  (301, "Moved Permanently"%string);
  (302, "Found"%string);
  (303, "See Other"%string);
  (304, "Not Modified"%string);
  (305, "Use Proxy"%string);
  (307, "Temporary Redirect"%string);
  (308, "Permanent Redirect"%string);
  (400, "Bad Request"%string);
  (401, "Unauthorized"%string);
  (402, "Payment Required"%string);
  (403, "Forbidden"%string);
  (404, "Not Found"%string);
  (405, "Method Not Allowed"%string);
  (406, "Not Acceptable"%string);
  (407, "Proxy Authentication Required"%string);
  (408, "Request Timeout"%string);
  (409, "Conflict"%string);
  (410, "Gone"%string);
  (411, "Length Required"%string);
  (412, "Precondition Failed"%string);
  (413, "Payload Too Large"%string);
  (414, "URI Too Long"%string);
  (415, "Unsupported Media Type"%string);
  (416, "Range Not Satisfiable"%string);
  (417, "Expectation Failed"%string);
  (418, "I'm a teapot"%string);
  (421, "Misdirected Request"%string);
  (422, "Unprocessable Entity"%string);
  (423, "Locked"%string);
  (424, "Failed Dependency"%string);
  (425, "Too Early"%string);
  (426, "Upgrade Required"%string);
  (428, "Precondition Required"%string);
  (429, "Too Many Requests"%string);
  (431, "Request Header Fields Too Large"%string);
  (451, "Unavailable For Legal Reasons"%string);
  (500, "Internal Server Error"%string);
  (501, "Not Implemented"%string);
  (502, "Bad Gateway"%string);
  (503, "Service Unavailable"%string);
  (504, "Gateway Timeout"%string);
  (505, "HTTP Version Not Supported"%string);
  (506, "Variant Also Negotiates"%string);
  (507, "Insufficient Storage"%string);
  (508, "Loop Detected"%string);
  (510, "Not Extended"%string);
  (511, "Network Authentication Required"%string)].
Definition registered (c : N) (t : bytes) : Prop := exists s, In (c, s) iana_reasons /\ t = str s.
