(** Specifications for URIs: decimal numerals, percent encoding, the shape of a URI. *)
From Coq Require Import ZArith QArith Qabs Qpower List SpecFloat.
From Coq.Strings Require Import Byte String.
From Verif Require Import Base M_Keys S_Keys M_Unit S_Unit M_URI.
Import ListNotations.
Open Scope Z_scope.

(** ** Decimal numerals *)
Definition digit (b : byte) : Prop := 48 <= bZ b <= 57.
Fixpoint number (l : bytes) : Z :=
  match l with [] => 0 | b :: r => (bZ b - 48) * 10 ^ blen r + number r end.
Inductive sign_text : bytes -> Z -> Prop :=
| no_sign : sign_text [] 1
| plus_sign : sign_text [x2b] 1
| minus_sign : sign_text [x2d] (-1).
Inductive frac_text : bytes -> bytes -> Prop :=
| no_frac : frac_text [] []
| a_frac fp : frac_text (x2e :: fp) fp.
Inductive exp_text : bytes -> Z -> Prop :=
| no_exp : exp_text [] 0
| an_exp e sg s ds : e = x65 \/ e = x45 -> sign_text sg s -> ds <> [] -> Forall digit ds ->
    exp_text (e :: sg ++ ds) (s * number ds).
Definition pow10 (k : Z) : Q := Qpower (inject_Z 10) k.
(** the text is a decimal numeral for the rational: [[sign] digits [. digits] [e [sign] digits]],
    with a digit before the exponent *)
Definition denotes (t : bytes) (q : Q) : Prop :=
  exists sg s ip ft fp et x, t = sg ++ ip ++ ft ++ et /\ sign_text sg s /\ frac_text ft fp /\ exp_text et x /\
    ip ++ fp <> [] /\ Forall digit (ip ++ fp) /\
    (q == inject_Z (s * number (ip ++ fp)) * pow10 (x - blen fp))%Q.
(** [q'] is [q] to 12 significant digits *)
Definition to_12_digits (q q' : Q) : Prop :=
  ((q == 0)%Q /\ (q' == 0)%Q) \/
  exists p m, (pow10 (p - 1) <= Qabs q)%Q /\ (Qabs q < pow10 p)%Q /\ (q' == inject_Z m * pow10 (p - 12))%Q /\
    (Qabs (q - q') * 2 <= pow10 (p - 12))%Q.

(** ** Percent encoding *)
Inductive hex_digit_is : byte -> Z -> Prop :=
| hex_09 b : 48 <= bZ b <= 57 -> hex_digit_is b (bZ b - 48)
| hex_af b : 97 <= bZ b <= 102 -> hex_digit_is b (bZ b - 87)
| hex_AF b : 65 <= bZ b <= 70 -> hex_digit_is b (bZ b - 55).
(** the characters with a meaning inside a query: % + & ; = # *)
Definition reserved (b : byte) : Prop := In b [x25; x2b; x26; x3b; x3d; x23].
(** [t] is a way to write [l] in a query *)
Inductive encodes : bytes -> bytes -> Prop :=
| enc_nil : encodes [] []
| enc_self b l t : ~ reserved b -> encodes l t -> encodes (b :: l) (b :: t)
| enc_plus l t : encodes l t -> encodes (x20 :: l) (x2b :: t)
| enc_hex b x y h k l t : hex_digit_is x h -> hex_digit_is y k -> bZ b = 16 * h + k -> encodes l t ->
    encodes (b :: l) (x25 :: x :: y :: t).

(** ** URIs *)
Definition alnum (b : byte) : Prop := 48 <= bZ b <= 57 \/ 65 <= bZ b <= 90 \/ 97 <= bZ b <= 122.
Definition scheme_text (s : bytes) : Prop := s <> [] /\ Forall (fun b => alnum b \/ In b [x2b; x2d; x2e]) s.
(** a field *)
Inductive field_text : bytes * bytes -> bytes -> Prop :=
| a_field k v ek ev : encodes k ek -> encodes v ev -> field_text (k, v) (ek ++ x3d :: ev).
(** fields separated by & or ; *)
Inductive fields_text : list (bytes * bytes) -> bytes -> Prop :=
| one_field f t : field_text f t -> fields_text [f] t
| more_fields f t sep fs ts : field_text f t -> sep = x26 \/ sep = x3b -> fields_text fs ts ->
    fields_text (f :: fs) (t ++ sep :: ts).
Inductive query_text : list (bytes * bytes) -> bytes -> Prop :=
| no_query : query_text [] []
| a_query fs t : fields_text fs t -> query_text fs (x3f :: t).
(** what a reader makes of the pieces of a query: fields with an empty value and pieces without an equals sign count for nothing *)
Inductive piece_text : list (bytes * bytes) -> bytes -> Prop :=
| piece_field k v t : field_text (k, v) t -> v <> [] -> piece_text [(k, v)] t
| piece_blank k t : field_text (k, []) t -> piece_text [] t
| piece_nothing t : Forall (fun b => ~ In b [x26; x3b; x3d; x23]) t -> piece_text [] t.
Inductive pieces_text : list (bytes * bytes) -> bytes -> Prop :=
| one_piece fs t : piece_text fs t -> pieces_text fs t
| more_pieces f t sep fs ts : piece_text f t -> sep = x26 \/ sep = x3b -> pieces_text fs ts ->
    pieces_text (f ++ fs) (t ++ sep :: ts).
Inductive read_query : list (bytes * bytes) -> bytes -> Prop :=
| read_none : read_query [] []
| read_some fs t : pieces_text fs t -> read_query fs (x3f :: t).
(** [scheme:path[?query]] or [scheme://path[?query]] with an alphanumeric path; in the first form without a query, the path must not be a number *)
Definition uri_text (scheme path : bytes) (fs : list (bytes * bytes)) (t : bytes) : Prop :=
  exists sl q, t = scheme ++ x3a :: sl ++ path ++ q /\ (sl = [] \/ sl = [x2f; x2f]) /\ scheme_text scheme /\ Forall alnum path /\ path <> [] /\ read_query fs q /\
    (sl = [] -> q = [] -> ~ Forall digit path).
(** the value of a key is the last one given *)
Definition last_value (k : bytes) (fs : list (bytes * bytes)) (v : option bytes) : Prop :=
  match v with
  | None => ~ In k (map fst fs)
  | Some w => exists a b, fs = a ++ (k, w) :: b /\ ~ In k (map fst b)
  end.
Definition ascii_text (l : bytes) : Prop := Forall (fun b => bZ b < 128) l.
(** amounts whose nearest float is finite *)
Definition in_range (q : Q) : Prop := (Qabs q < inject_Z (2 ^ 1024 - 2 ^ 970))%Q.
(** numerals with blanks around them, and the texts for infinities and not-a-number *)
Definition blank (b : byte) : Prop := In (bZ b) [9; 10; 11; 12; 13; 28; 29; 30; 31; 32; 133; 160].
Definition padded (c t : bytes) : Prop := exists a b, t = a ++ c ++ b /\ Forall blank a /\ Forall blank b.
(** equal up to the case of letters *)
Definition same_letter (a b : byte) : Prop := a = b \/ (97 <= bZ b <= 122 /\ bZ a = bZ b - 32).
Definition special_text (t : bytes) : Prop :=
  exists sg s w, t = sg ++ w /\ sign_text sg s /\
    (Forall2 same_letter w [x69; x6e; x66] \/ Forall2 same_letter w [x69; x6e; x66; x69; x6e; x69; x74; x79] \/ Forall2 same_letter w [x6e; x61; x6e]).
(** the keys with a meaning of their own *)
Definition member (k : bytes) : Prop := In k (map txt ["address"; "amount"; "message"; "label"; "r"]%string).
(** what a URI object holds besides the amount, when [value] gives the value of each key *)
Definition holds (u : uri_t) (a : address) (value : bytes -> option bytes -> Prop) : Prop :=
  uri_address u = a /\ value (txt "message") (uri_message u) /\ value (txt "label") (uri_label u) /\ value (txt "r") (uri_r u) /\
  NoDup (map fst (uri_extras u)) /\ forall k v, In (k, v) (uri_extras u) <-> ~ member k /\ value k (Some v).
(** a float amount of bitcoins too large to be converted *)
Definition overflows (f : float) : Prop :=
  (exists s, f = S754_infinity s) \/ exists q, fvalue f = Some q /\ ~ in_range (q * inject_Z 100000000).
(** byte order on texts *)
Inductive text_le : bytes -> bytes -> Prop :=
| le_nil l : text_le [] l
| le_lt a b l m : bZ a < bZ b -> text_le (a :: l) (b :: m)
| le_eq a l m : text_le l m -> text_le (a :: l) (a :: m).
(** the fields [to_uri] is to write *)
Definition field_of (u : uri_t) (k v : bytes) : Prop :=
  In (k, v) (uri_extras u) \/ (k = txt "amount" /\ exists w, uri_amount u = Some w /\ v = str_float (u_btc w)) \/
  (v <> [] /\ ((k = txt "message" /\ uri_message u = Some v) \/ (k = txt "label" /\ uri_label u = Some v) \/ (k = txt "r" /\ uri_r u = Some v))).
(** a URI object made of ASCII texts, with other keys that are not special ones *)
Definition plain (u : uri_t) : Prop :=
  valid_addr (uri_address u) /\ NoDup (map fst (uri_extras u)) /\
  (forall k v, In (k, v) (uri_extras u) -> ~ member k /\ ascii_text k /\ ascii_text v) /\
  (forall v, uri_message u = Some v \/ uri_label u = Some v \/ uri_r u = Some v -> ascii_text v) /\
  (forall w, uri_amount u = Some w -> exists q, fvalue (u_btc w) = Some q).
(** [u'] is [u] after writing and reading, the amount aside: entries with empty values are gone, the others may come in another order *)
Definition kept (v : option bytes) : option bytes := match v with Some [] => None | _ => v end.
Definition same_uri (u u' : uri_t) : Prop :=
  uri_address u' = uri_address u /\ uri_message u' = kept (uri_message u) /\ uri_label u' = kept (uri_label u) /\ uri_r u' = kept (uri_r u) /\
  NoDup (map fst (uri_extras u')) /\ forall k v, In (k, v) (uri_extras u') <-> In (k, v) (uri_extras u) /\ v <> [].
(** all texts of the object are ASCII *)
Definition all_ascii (u : uri_t) : Prop :=
  (forall k v, In (k, v) (uri_extras u) -> ascii_text k /\ ascii_text v) /\
  (forall v, uri_message u = Some v \/ uri_label u = Some v \/ uri_r u = Some v -> ascii_text v).
(** no amount is given, or one that can be converted *)
Definition amount_ok (fs : list (bytes * bytes)) : Prop :=
  last_value (txt "amount") fs None \/ exists x c q, last_value (txt "amount") fs (Some x) /\ padded c x /\ denotes c q /\ (Qabs q <= inject_Z (2 ^ 900))%Q.
