(** Model of bitforge/uri.py, with the parts of the Python 2.7 library it calls: urlparse.urlparse,
    urlparse.parse_qsl, urllib.urlencode, float(text) and str(float).  Text is the list of its
    Latin-1 codes, as a [unicode] object; characters above U+00FF are not modelled. *)
From Coq Require Import ZArith SpecFloat List.
From Coq.Strings Require Import Byte String.
From Verif Require Import Base M_Codec M_Keys M_Unit.
Import ListNotations.
Open Scope Z_scope.

(** ** Text *)
Definition chr (z : Z) : byte := Zb z.
Definition is_digit (b : byte) : bool := (48 <=? bZ b) && (bZ b <=? 57).
Definition is_upper (b : byte) : bool := (65 <=? bZ b) && (bZ b <=? 90).
Definition is_lower (b : byte) : bool := (97 <=? bZ b) && (bZ b <=? 122).
Definition is_alnum (b : byte) : bool := is_digit b || is_upper b || is_lower b.
Definition lower (b : byte) : byte := if is_upper b then Zb (bZ b + 32) else b.
Definition is (c : Z) (b : byte) : bool := bZ b =? c.

(** [text.split(c, 1)] when [c] occurs in it *)
Fixpoint cut_at (c : Z) (l : bytes) : option (bytes * bytes) :=
  match l with
  | [] => None
  | b :: r => if is c b then Some ([], r)
              else match cut_at c r with Some (u, v) => Some (b :: u, v) | None => None end
  end.
(** [text.split(c)] *)
Fixpoint split_on (c : Z) (l : bytes) : list bytes :=
  match l with
  | [] => [[]]
  | b :: r => if is c b then [] :: split_on c r
              else match split_on c r with s :: t => (b :: s) :: t | [] => [[b]] end
  end.
Fixpoint span (p : byte -> bool) (l : bytes) : bytes * bytes :=
  match l with
  | b :: r => if p b then let '(u, v) := span p r in (b :: u, v) else ([], l)
  | [] => ([], [])
  end.

(** ** urlparse.py (Python 2.7.18) *)

(** [scheme_chars] *)
Definition scheme_char (b : byte) : bool := is_alnum b || is 43 b || is 45 b || is 46 b.
(** [uses_params] *)
Definition uses_params : list bytes :=
  map txt [""; "ftp"; "hdl"; "prospero"; "http"; "https"; "shttp"; "rtsp"; "rtspu"; "sip"; "sips"; "mms"; "sftp"; "tel"]%string.

(** [urlsplit], the scheme.  A prefix that is exactly [http] is taken at once; otherwise all its
    characters must be allowed and what follows must not be a (port) number *)
Definition split_scheme (url : bytes) : bytes * bytes :=
  match cut_at 58 url with
  | Some (b :: s, rest) =>
      if bytes_eqb (b :: s) (txt "http") then (b :: s, rest)
      else if forallb scheme_char (b :: s) && (match rest with [] => true | _ => negb (forallb is_digit rest) end)
      then (map lower (b :: s), rest) else ([], url)
  | _ => ([], url)
  end.
(** [_splitnetloc], after the two slashes *)
Definition netloc_char (b : byte) : bool := negb (is 47 b || is 63 b || is 35 b).
(** [urlsplit]: scheme, network location, path, query; the fragment is not used by the caller *)
Definition urlsplit (url : bytes) : res (bytes * bytes * bytes * bytes) :=
  let '(scheme, url) := split_scheme url in
  let '(netloc, url) := match url with
    | a :: b :: r => if is 47 a && is 47 b then span netloc_char r else ([], url)
    | _ => ([], url)
    end in
  if xorb (existsb (is 91) netloc) (existsb (is 93) netloc) then Err E_ValueError else
  let url := match cut_at 35 url with Some (u, _) => u | None => url end in
  let '(url, query) := match cut_at 63 url with Some uq => uq | None => (url, []) end in
  Ok (scheme, netloc, url, query).
(** [_splitparams], the path it keeps: a ';' in the last segment ends it *)
Fixpoint drop_params (path : bytes) : bytes :=
  match path with
  | [] => []
  | b :: r => if is 59 b && negb (existsb (is 47) r) then [] else b :: drop_params r
  end.
(** [urlparse]: network location, path and query *)
Definition urlparse (url : bytes) : res (bytes * bytes * bytes) :=
  let! (scheme, netloc, path, query) := urlsplit url in
  let path := if existsb (bytes_eqb scheme) uses_params then drop_params path else path in
  Ok (netloc, path, query).

(** [unquote] *)
Fixpoint unquote (l : bytes) : bytes :=
  match l with
  | [] => []
  | b :: r =>
      if is 37 b then
        match r with
        | x :: y :: r' => match hex_value x, hex_value y with
                          | Some p, Some q => Zb (16 * p + q) :: unquote r'
                          | _, _ => b :: unquote r
                          end
        | _ => b :: unquote r
        end
      else b :: unquote r
  end.
(** [unquote(text.replace('+', ' '))] *)
Definition unquote_plus (l : bytes) : bytes := unquote (map (fun b => if is 43 b then Zb 32 else b) l).
(** [parse_qsl(query)]: fields without '=' and fields with an empty value are left out *)
Definition parse_field (s : bytes) : list (bytes * bytes) :=
  match cut_at 61 s with
  | Some (k, b :: v) => [(unquote_plus k, unquote_plus (b :: v))]
  | _ => []
  end.
Definition parse_qsl (query : bytes) : list (bytes * bytes) :=
  flat_map parse_field (flat_map (split_on 59) (split_on 38 query)).

(** dictionaries with text keys: association lists, one entry per key *)
Section Dict.
Context {A : Type}.
Definition dict := list (bytes * A).
Fixpoint dget (k : bytes) (d : dict) : option A :=
  match d with (k', v) :: r => if bytes_eqb k k' then Some v else dget k r | [] => None end.
Definition dremove (k : bytes) (d : dict) : dict := filter (fun e => negb (bytes_eqb k (fst e))) d.
Definition dset (d : dict) (k : bytes) (v : A) : dict := dremove k d ++ [(k, v)].
(** [dict(pairs)] *)
Definition to_dict (l : list (bytes * A)) : dict := fold_left (fun d e => dset d (fst e) (snd e)) l [].
End Dict.
Arguments dict : clear implicits.

(** ** float(text) *)
(** white space of [unicode] among the Latin-1 characters *)
Definition is_space (b : byte) : bool :=
  ((9 <=? bZ b) && (bZ b <=? 13)) || ((28 <=? bZ b) && (bZ b <=? 32)) || is 133 b || is 160 b.
Fixpoint lstrip (l : bytes) : bytes := match l with b :: r => if is_space b then lstrip r else l | [] => [] end.
Definition strip (l : bytes) : bytes := rev (lstrip (rev (lstrip l))).
Definition sign_of (l : bytes) : bool * bytes :=
  match l with
  | b :: r => if is 45 b then (true, r) else if is 43 b then (false, r) else (false, l)
  | [] => (false, l)
  end.
Definition dec_val (l : bytes) : Z := fold_left (fun a b => 10 * a + (bZ b - 48)) l 0.
(** the float nearest to n / d *)
Definition f_ratio (n d : positive) : float :=
  let '(m, e, l) := SFdiv_core_binary 53 1024 (Zpos n) 0 (Zpos d) 0 in SpecFloat.binary_round_aux 53 1024 false m e l.
(** the float nearest to n 10^k, an infinity when that is out of range.  (The limit of about 20000
    that C code puts on the exponent is not modelled.) *)
Definition f_decimal (n k : Z) : float :=
  match n with
  | Zpos p => if 0 <=? k then f_round (n * 10 ^ k) 0 else f_ratio p (Z.to_pos (10 ^ (- k)))
  | _ => S754_zero false
  end.
Definition f_opp (neg : bool) (f : float) : float := if neg then SFopp f else f.
Definition exponent_of (l : bytes) : res Z :=
  match l with
  | [] => Ok 0
  | b :: r =>
      if is 101 b || is 69 b then
        let '(neg, r) := sign_of r in
        match r with
        | [] => Err E_ValueError
        | _ => if forallb is_digit r then Ok (if neg then - dec_val r else dec_val r) else Err E_ValueError
        end
      else Err E_ValueError
  end.
Definition py_float (text : bytes) : res float :=
  let '(neg, l) := sign_of (strip text) in
  let low := map lower l in
  if bytes_eqb low (txt "inf") || bytes_eqb low (txt "infinity") then Ok (S754_infinity neg)
  else if bytes_eqb low (txt "nan") then Ok S754_nan
  else
    let '(ip, r) := span is_digit l in
    let '(fp, r) := match r with b :: r' => if is 46 b then span is_digit r' else ([], r) | [] => ([], r) end in
    match ip ++ fp with
    | [] => Err E_ValueError
    | ds => let! x := exponent_of r in Ok (f_opp neg (f_decimal (dec_val ds) (x - blen fp)))
    end.

(** ** str(float): at most 12 significant digits *)
Fixpoint dec_text_f (fuel : nat) (n : Z) : bytes :=
  match fuel with
  | O => []
  | S f => (if n <? 10 then [] else dec_text_f f (n / 10)) ++ [Zb (48 + n mod 10)]
  end.
(** the decimal digits of n >= 0 *)
Definition dec_text (n : Z) : bytes := dec_text_f (S (Z.to_nat (Z.log2 n))) n.
(** for n, d > 0: the p with 10^(p-1) <= n/d < 10^p *)
Definition dec_point (n d : Z) : Z :=
  if d <=? n then blen (dec_text (n / d)) else 1 - blen (dec_text ((d - 1) / n)).
(** n/d to the nearest integer, ties to even *)
Definition round_even (n d : Z) : Z :=
  let q := n / d in
  let r := 2 * (n mod d) in
  if (r <? d) || ((r =? d) && Z.even q) then q else q + 1.
(** n/d is about 0.DIGITS * 10^p: the (up to) 12 digits and p *)
Definition digits12 (n d : Z) : bytes * Z :=
  let p := dec_point n d in
  let k := 12 - p in
  let m := if 0 <=? k then round_even (n * 10 ^ k) d else round_even n (d * 10 ^ (- k)) in
  if m =? 10 ^ 12 then (dec_text (10 ^ 11), p + 1) else (dec_text m, p).
Fixpoint lzero (l : bytes) : bytes := match l with b :: r => if is 48 b then lzero r else l | [] => [] end.
Definition strip_zeros (l : bytes) : bytes := rev (lzero (rev l)).
Definition zeros_text (n : Z) : bytes := repeat (Zb 48) (Z.to_nat n).
Definition two_digits (n : Z) : bytes := if n <? 10 then Zb 48 :: dec_text n else dec_text n.
(** the layout of the digits *)
Definition layout (ds : bytes) (p : Z) : bytes :=
  if (p <=? -4) || (11 <? p) then
    (match ds with
     | [] => []
     | [b] => [b]
     | b :: r => b :: Zb 46 :: r
     end) ++ [Zb 101] ++ (if p - 1 <? 0 then Zb 45 :: two_digits (1 - p) else Zb 43 :: two_digits (p - 1))
  else if p <=? 0 then [Zb 48; Zb 46] ++ zeros_text (- p) ++ ds
  else if blen ds <=? p then ds ++ zeros_text (p - blen ds) ++ [Zb 46; Zb 48]
  else firstn (Z.to_nat p) ds ++ [Zb 46] ++ skipn (Z.to_nat p) ds.
Definition str_pos (n d : Z) : bytes := let '(ds, p) := digits12 n d in layout (strip_zeros ds) p.
Definition str_float (f : float) : bytes :=
  match f with
  | S754_nan => txt "nan"
  | S754_infinity s => (if s then [Zb 45] else []) ++ txt "inf"
  | S754_zero s => (if s then [Zb 45] else []) ++ txt "0.0"
  | S754_finite s m e =>
      (if s then [Zb 45] else []) ++ (if 0 <=? e then str_pos (Zpos m * 2 ^ e) 1 else str_pos (Zpos m) (2 ^ (- e)))
  end.

(** ** urllib.urlencode *)
Definition hex_upper (z : Z) : byte := if z <? 10 then Zb (48 + z) else Zb (55 + z).
Definition always_safe (b : byte) : bool := is_alnum b || is 95 b || is 46 b || is 45 b.
(** [quote_plus] *)
Definition quote_plus (l : bytes) : bytes :=
  flat_map (fun b => if always_safe b then [b] else if is 32 b then [Zb 43]
                     else [Zb 37; hex_upper (bZ b / 16); hex_upper (bZ b mod 16)]) l.
(** [str] of a text; UnicodeEncodeError is a ValueError *)
Definition str_text (l : bytes) : res bytes := if forallb (fun b => bZ b <? 128) l then Ok l else Err E_ValueError.
(** the values that reach [urlencode] *)
Inductive qval := QText (t : bytes) | QFloat (f : float).
Definition str_qval (v : qval) : res bytes := match v with QText t => str_text t | QFloat f => Ok (str_float f) end.
Fixpoint encode_fields (l : list (bytes * qval)) : res (list bytes) :=
  match l with
  | [] => Ok []
  | (k, v) :: r => let! k' := str_text k in let! v' := str_qval v in
                   let! t := encode_fields r in Ok ((quote_plus k' ++ [Zb 61] ++ quote_plus v') :: t)
  end.
(** ['&'.join] *)
Fixpoint join_amp (l : list bytes) : bytes :=
  match l with [] => [] | [s] => s | s :: r => s ++ [Zb 38] ++ join_amp r end.
Definition urlencode (l : list (bytes * qval)) : res bytes := let! fs := encode_fields l in Ok (join_amp fs).

(** [sorted] on items with distinct keys: by key *)
Fixpoint bytes_leb (a b : bytes) : bool :=
  match a, b with
  | [], _ => true
  | _ :: _, [] => false
  | x :: a', y :: b' => if bZ x <? bZ y then true else if bZ y <? bZ x then false else bytes_leb a' b'
  end.
Fixpoint insert_item {A} (e : bytes * A) (l : list (bytes * A)) : list (bytes * A) :=
  match l with
  | [] => [e]
  | e' :: r => if bytes_leb (fst e) (fst e') then e :: l else e' :: insert_item e r
  end.
Definition sorted_items {A} (l : list (bytes * A)) : list (bytes * A) := fold_right insert_item [] l.

(** ** bitforge/uri.py *)

(** [getattr(self, key, False)] is [None] where an attribute was never set *)
Record uri_t := Uri { uri_address : address; uri_amount : option unit_t; uri_message : option bytes;
  uri_label : option bytes; uri_r : option bytes; uri_extras : dict bytes }.

Definition k_address := txt "address".
Definition k_amount := txt "amount".
Definition k_message := txt "message".
Definition k_label := txt "label".
Definition k_r := txt "r".
(** bitforge/uri.py:42 *)
Definition members : list bytes := [k_address; k_amount; k_message; k_label; k_r].

(** bitforge/uri.py:24-29 [parse] *)
Definition uri_parse (uri : bytes) : res (dict bytes) :=
  let! (netloc, path, query) := urlparse uri in
  Ok (dset (to_dict (parse_qsl query)) k_address (match path with [] => netloc | _ => path end)).

(** bitforge/uri.py:41-52 [_build_from_dict].  The dictionary is given in two parts: the entries
    other than ['amount'], whose values are text here, and the amount, a number. *)
Definition build_from_dict (d : dict bytes) (amount : option num) : res uri_t :=
  let extras := filter (fun e => negb (existsb (bytes_eqb (fst e)) members)) d in
  match dget k_address d with
  | None => Err E_AttributeError
  | Some a =>
      let! address := addr_from_string a in
      let! unit := match amount with Some x => let! u := unit_init (Some x) None None None in Ok (Some u) | None => Ok None end in
      Ok (Uri address unit (dget k_message d) (dget k_label d) (dget k_r d) extras)
  end.

(** what [URI(args)] may be given; any other object is [AOther] *)
Inductive uri_args := AText (t : bytes) | ADict (d : dict bytes) (amount : option num) | AOther.

(** bitforge/uri.py:31-39 [__init__] *)
Definition uri_init (args : uri_args) : res uri_t :=
  match args with
  | AText t =>
      let! d := uri_parse t in
      match dget k_amount d with
      | None => build_from_dict d None
      | Some x => let! f := py_float x in
                  let! u := unit_init None None None (Some (NFloat f)) in
                  build_from_dict (dremove k_amount d) (Some (NInt (u_satoshis u)))
      end
  | ADict d amount => build_from_dict d amount
  | AOther => Err E_ValueError
  end.

(** the exceptions that [except (ValueError, BitforgeError)] catches, among those that can arise *)
Definition caught (e : exn) : bool :=
  match e with
  | E_ValueError | E_UnicodeDecodeError | E_Addr_InvalidBase58h | E_Addr_InvalidBinaryLength | E_Addr_InvalidVersion => true
  | _ => false
  end.
(** bitforge/uri.py:16-22 [is_valid] *)
Definition uri_is_valid (args : uri_args) : res bool :=
  match uri_init args with
  | Ok _ => Ok true
  | Err e => if caught e then Ok false else Err e
  end.

Definition opt_entry (k : bytes) (v : option bytes) (q : dict qval) : dict qval :=
  match v with Some (b :: t) => dset q k (QText (b :: t)) | _ => q end.
(** bitforge/uri.py:54-63 [to_uri].  A [Unit] object is always true. *)
Definition to_uri (u : uri_t) : res bytes :=
  let q := map (fun e => (fst e, QText (snd e))) (uri_extras u) in
  let q := match uri_amount u with Some a => dset q k_amount (QFloat (u_btc a)) | None => q end in
  let q := opt_entry k_r (uri_r u) (opt_entry k_label (uri_label u) (opt_entry k_message (uri_message u) q)) in
  let! query := urlencode (sorted_items q) in
  let! a := addr_to_string (uri_address u) in
  Ok (txt "bitcoin:" ++ a ++ match query with [] => [] | _ => Zb 63 :: query end).

(** bitforge/uri.py:65-66 [__repr__] wraps [to_uri] in a fixed text; it is left out. *)
