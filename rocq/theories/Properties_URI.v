(** Property theorems C66, C82-C85: payment URIs. *)
From Coq Require Import ZArith QArith Qabs List SpecFloat Sorting.Sorted.
From Coq.Strings Require Import Byte String.
From Verif Require Import Base M_Keys S_Keys M_Unit S_Unit M_URI S_URI P_Decimal P_URI.
Import ListNotations.
Open Scope Z_scope.

(** *** C66 *)
Theorem C66_raises : forall t e, uri_is_valid (AText t) = Err e <-> e = E_OverflowError /\
  exists d x f, uri_parse t = Ok d /\ dget (txt "amount") d = Some x /\ py_float x = Ok f /\ overflows f.
Proof. exact is_valid_raises. Qed.
Print Assumptions C66_raises.

Theorem C66_exact : forall t, uri_is_valid (AText t) = Ok true <-> exists u, uri_init (AText t) = Ok u.
Proof. exact is_valid_exact. Qed.
Print Assumptions C66_exact.

Theorem C66_valid : forall scheme path fs t, uri_text scheme path fs t -> amount_ok fs ->
  exists b, uri_is_valid (AText t) = Ok b /\ (b = true <-> exists a, valid_addr a /\ addr_to_string a = Ok path).
Proof. exact valid_iff. Qed.
Print Assumptions C66_valid.

Theorem C66_invalid_amount : forall scheme path fs t x, uri_text scheme path fs t -> last_value (txt "amount") fs (Some x) ->
  ~ (exists c, padded c x /\ ((exists q, denotes c q) \/ special_text c)) -> uri_is_valid (AText t) = Ok false.
Proof. exact invalid_amount. Qed.
Print Assumptions C66_invalid_amount.

Theorem C66_dict : forall d amount e, match amount with Some (NFloat f) => is_float f | _ => True end -> uri_is_valid (ADict d amount) = Err e <->
  (e = E_AttributeError /\ dget (txt "address") d = None) \/
  (e = E_OverflowError /\ (exists s a, dget (txt "address") d = Some s /\ addr_from_string s = Ok a) /\
     ((exists z, amount = Some (NInt z) /\ too_large z) \/ exists b, amount = Some (NFloat (S754_infinity b)))).
Proof. exact is_valid_dict. Qed.
Print Assumptions C66_dict.

Theorem C66_other : uri_is_valid AOther = Ok false.
Proof. exact is_valid_other. Qed.
Print Assumptions C66_other.

Theorem C66_scheme_ignored : forall s s' rest, scheme_text s -> scheme_text s' -> ~ In (map lower s) uses_params -> ~ In (map lower s') uses_params ->
  rest = [] \/ ~ Forall digit rest -> uri_init (AText (s ++ x3a :: rest)) = uri_init (AText (s' ++ x3a :: rest)).
Proof. exact scheme_ignored. Qed.
Print Assumptions C66_scheme_ignored.

Theorem C66_scheme_refuted : ~ forall scheme path fs t, uri_text scheme path fs t -> uri_is_valid (AText t) = Ok true -> map lower scheme = txt "bitcoin".
Proof. exact scheme_not_checked. Qed.
Print Assumptions C66_scheme_refuted.

Theorem C66_total_refuted : ~ forall t, exists b, uri_is_valid (AText t) = Ok b.
Proof. exact is_valid_not_total. Qed.
Print Assumptions C66_total_refuted.

Theorem C66_dict_total_refuted : ~ forall d amount, exists b, uri_is_valid (ADict d amount) = Ok b.
Proof. exact is_valid_dict_not_total. Qed.
Print Assumptions C66_dict_total_refuted.

(** with the amount 1e301 *)
Example C66_ex : (exists path, addr_from_string path = Ok zero_address /\
    uri_is_valid (AText (txt "bitcoin:" ++ path ++ txt "?amount=1e301")) = Err E_OverflowError /\
    uri_is_valid (AText (txt "bitcoin:" ++ path ++ txt "?amount=12")) = Ok true /\
    uri_is_valid (AText (txt "litecoin:" ++ path ++ txt "?amount=12")) = Ok true).
Proof. exact uri_example_valid. Qed.

(** *** C82 *)
Theorem C82_members : forall scheme path fs t a, uri_text scheme path fs t -> addr_from_string path = Ok a -> last_value (txt "amount") fs None ->
  exists u, uri_init (AText t) = Ok u /\ uri_amount u = None /\ holds u a (fun k v => last_value k fs v).
Proof. exact init_ok. Qed.
Print Assumptions C82_members.

Theorem C82_members_amount : forall scheme path fs t a x f w, uri_text scheme path fs t -> addr_from_string path = Ok a -> last_value (txt "amount") fs (Some x) ->
  py_float x = Ok f -> unit_init None None None (Some (NFloat f)) = Ok w ->
  exists u y, uri_init (AText t) = Ok u /\ uri_amount u = Some y /\ u_satoshis y = u_satoshis w /\ holds u a (fun k v => last_value k fs v).
Proof. exact init_amount. Qed.
Print Assumptions C82_members_amount.

Theorem C82_parts : forall scheme path fs t, uri_text scheme path fs t -> exists d, uri_parse t = Ok d /\ NoDup (map fst d) /\
  dget k_address d = Some path /\ forall k, k <> k_address -> last_value k fs (dget k d).
Proof. exact parse_ok. Qed.
Print Assumptions C82_parts.

(** the last label counts, the empty message and the piece without an equals sign are ignored *)
Example C82_ex : exists path u, addr_from_string path = Ok zero_address /\
  uri_init (AText (txt "bitcoin://" ++ path ++ txt "?label=a&x=%41+b;label=Caf%c3%A9&message=&y")) = Ok u /\
  uri_address u = zero_address /\ uri_amount u = None /\ uri_message u = None /\
  uri_label u = Some (txt "Caf" ++ [xc3; xa9]) /\ uri_extras u = [(txt "x", txt "A b")].
Proof. exact uri_example_read. Qed.

(** *** C83 *)
Theorem C83_text : forall u, plain u -> exists t path fs q, to_uri u = Ok t /\ addr_to_string (uri_address u) = Ok path /\ t = txt "bitcoin:" ++ path ++ q /\
  query_text fs q /\ NoDup (map fst fs) /\ StronglySorted (fun a b => text_le (fst a) (fst b)) fs /\ forall k v, In (k, v) fs <-> field_of u k v.
Proof. exact to_uri_ok. Qed.
Print Assumptions C83_text.

Theorem C83_total : forall u, valid_addr (uri_address u) -> NoDup (map fst (uri_extras u)) -> (forall k v, In (k, v) (uri_extras u) -> ~ member k) ->
  match to_uri u with Ok _ => all_ascii u | Err e => e = E_ValueError /\ ~ all_ascii u end.
Proof. exact to_uri_total. Qed.
Print Assumptions C83_total.

Theorem C83_roundtrip : forall u path, plain u -> addr_to_string (uri_address u) = Ok path -> ~ Forall digit path -> uri_amount u = None ->
  exists t u', to_uri u = Ok t /\ uri_init (AText t) = Ok u' /\ same_uri u u' /\ uri_amount u' = None.
Proof. exact roundtrip. Qed.
Print Assumptions C83_roundtrip.

Theorem C83_roundtrip_amount : forall u w s, plain u -> uri_amount u = Some w -> unit_init (Some (NInt s)) None None None = Ok w -> 0 <= s < 10 ^ 12 ->
  exists t u' w', to_uri u = Ok t /\ uri_init (AText t) = Ok u' /\ same_uri u u' /\ uri_amount u' = Some w' /\ (u_satoshis w' = s \/ u_satoshis w' = s - 1).
Proof. exact roundtrip_amount. Qed.
Print Assumptions C83_roundtrip_amount.

Theorem C83_roundtrip_amount_refuted : ~ forall u w s t u' w', plain u -> uri_amount u = Some w -> unit_init (Some (NInt s)) None None None = Ok w -> 0 <= s <= 2100000000000000 ->
  to_uri u = Ok t -> uri_init (AText t) = Ok u' -> uri_amount u' = Some w' -> s - 1 <= u_satoshis w' <= s.
Proof. exact roundtrip_not_exact. Qed.
Print Assumptions C83_roundtrip_amount_refuted.

Theorem C83_roundtrip_empty_refuted : ~ forall u t u', plain u -> to_uri u = Ok t -> uri_init (AText t) = Ok u' -> forall k v, In (k, v) (uri_extras u) -> In (k, v) (uri_extras u').
Proof. exact empty_lost. Qed.
Print Assumptions C83_roundtrip_empty_refuted.

(** a label, an amount and another field *)
Example C83_ex : exists u w t path, plain u /\ unit_init (Some (NInt 150000000)) None None None = Ok w /\ uri_amount u = Some w /\
  addr_to_string (uri_address u) = Ok path /\ to_uri u = Ok t /\ t = txt "bitcoin:" ++ path ++ txt "?amount=1.5&label=a%26b+c&zz=1".
Proof. exact uri_example_write. Qed.

(** *** C84 *)
Theorem C84_accepts : forall t, (exists f, py_float t = Ok f) <-> exists c, padded c t /\ ((exists q, denotes c q) \/ special_text c).
Proof. exact py_float_ok_iff. Qed.
Print Assumptions C84_accepts.

Theorem C84_blanks : forall c t q, denotes c q -> padded c t -> py_float t = py_float c.
Proof. exact py_float_padded. Qed.
Print Assumptions C84_blanks.

Theorem C84_nearest : forall t q, denotes t q -> in_range q -> exists f, py_float t = Ok f /\ nearest q f.
Proof. exact read_nearest. Qed.
Print Assumptions C84_nearest.

Theorem C84_overflow : forall t q, denotes t q -> ~ in_range q -> py_float t = Ok (S754_infinity (negb (Qle_bool 0 q))).
Proof. exact read_overflow. Qed.
Print Assumptions C84_overflow.

Theorem C84_error : forall t e, py_float t = Err e -> e = E_ValueError.
Proof. exact py_float_err. Qed.
Print Assumptions C84_error.

Theorem C84_writes : forall f q, fvalue f = Some q -> exists q', denotes (str_float f) q' /\ to_12_digits q q'.
Proof. exact write_ok. Qed.
Print Assumptions C84_writes.

Example C84_ex : denotes (txt "-12.50e-1") (-5 # 4) /\ in_range (-5 # 4) /\ py_float (txt "-12.50e-1") = Ok (S754_finite true 5629499534213120 (-52)) /\
  fvalue (S754_finite true 5629499534213120 (-52)) = Some (-5629499534213120 # 4503599627370496) /\ str_float (S754_finite true 5629499534213120 (-52)) = txt "-1.25" /\
  py_float (txt "1e") = Err E_ValueError /\ py_float (txt " -INF ") = Ok (S754_infinity true).
Proof.
  split; [|do 5 (split; [vm_compute; reflexivity|]); vm_compute; reflexivity].
  exists [x2d], (-1), (txt "12"), (txt ".50"), (txt "50"), (txt "e-1"), (-1). split; [reflexivity|]. split; [constructor|]. split; [apply a_frac|].
  split; [apply (an_exp x65 [x2d] (-1) (txt "1")); [left; reflexivity|constructor|discriminate|]|split; [discriminate|split; [|reflexivity]]];
    repeat (constructor; [unfold digit; cbn; split; discriminate|]); constructor.
Qed.

(** *** C85 *)
Theorem C85_read : forall t q s, denotes t q -> (q * inject_Z 100000000 == inject_Z s)%Q -> Z.abs s < 2 ^ 52 ->
  exists f u, py_float t = Ok f /\ unit_init None None None (Some (NFloat f)) = Ok u /\ (u_satoshis u = s \/ u_satoshis u = s - Z.sgn s).
Proof. exact amount_text. Qed.
Print Assumptions C85_read.

Theorem C85_written : forall s u, 0 <= s < 10 ^ 12 -> unit_init (Some (NInt s)) None None None = Ok u -> denotes (str_float (u_btc u)) (s # 100000000).
Proof. exact btc_text. Qed.
Print Assumptions C85_written.

Theorem C85_large_amounts_read : forall x c q, padded c x -> denotes c q -> (Qabs q <= inject_Z (2 ^ 900))%Q -> exists f w, py_float x = Ok f /\ unit_init None None None (Some (NFloat f)) = Ok w.
Proof. exact amount_reads. Qed.
Print Assumptions C85_large_amounts_read.

Theorem C85_exact_refuted : ~ forall scheme path fs t x q s u w, uri_text scheme path fs t -> last_value (txt "amount") fs (Some x) -> denotes x q -> (q * inject_Z 100000000 == inject_Z s)%Q -> Z.abs s < 2 ^ 52 ->
  uri_init (AText t) = Ok u -> uri_amount u = Some w -> u_satoshis w = s.
Proof. exact amount_not_exact. Qed.
Print Assumptions C85_exact_refuted.

Example C85_ex : denotes (txt "0.29") (29 # 100) /\ exists f u, py_float (txt "0.29") = Ok f /\ unit_init None None None (Some (NFloat f)) = Ok u /\ u_satoshis u = 28999999 /\
  exists u', unit_init (Some (NInt 29000000)) None None None = Ok u' /\ str_float (u_btc u') = txt "0.29".
Proof.
  split.
  - exists [], 1, (txt "0"), (txt ".29"), (txt "29"), [], 0. split; [reflexivity|]. split; [constructor|]. split; [apply a_frac|]. split; [constructor|]. split; [discriminate|].
    split; [|reflexivity]. repeat (constructor; [unfold digit; cbn; split; discriminate|]); constructor.
  - do 2 eexists. split; [vm_compute; reflexivity|]. split; [vm_compute; reflexivity|]. split; [reflexivity|]. eexists. split; [vm_compute; reflexivity|vm_compute; reflexivity].
Qed.
