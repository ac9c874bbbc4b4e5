(** Concrete hash functions used by bitforge through Python's [hashlib] / [hmac]:
    SHA-256, SHA-512, SHA-1, RIPEMD-160 and HMAC.
    bitforge calls them in bitforge/encoding.py:119-132 ([sha256], [sha1], [ripemd160]),
    bitforge/utils/encoding.py:44-45, 122-129 ([double_sha256], [hash160]),
    bitforge/hdprivkey.py / hdpubkey.py (HMAC-SHA512) and utils/ecdsa.py (HMAC-SHA256).
    They are transcribed from FIPS 180-4, the RIPEMD-160 paper and RFC 2104; no
    property depends on more than their output length, and the examples in
    [T_Hash.v] compare them with published test vectors.
    Simplification: message lengths are unbounded (FIPS limits them to 2^64 bits;
    the length field here is taken modulo its width). *)
From Verif Require Import Base.

(** Fixed-width big / little endian byte expansions. *)
Fixpoint le_bytes (k : nat) (z : Z) : bytes :=
  match k with O => [] | S k' => Zb z :: le_bytes k' (z / 256) end.
Definition be_bytes (k : nat) (z : Z) : bytes := rev (le_bytes k z).

Definition be_word (l : bytes) : Z := fold_left (fun a b => a * 256 + bZ b) l 0.
Definition le_word (l : bytes) : Z := fold_right (fun b a => bZ b + 256 * a) 0 l.

(** Split into chunks of [k] (k > 0); structural on a length bound. *)
Fixpoint chunks (fuel : nat) (k : nat) (l : bytes) : list bytes :=
  match fuel with
  | O => []
  | S f => match l with [] => [] | _ => firstn k l :: chunks f k (skipn k l) end
  end.
Definition chunk (k : nat) (l : bytes) : list bytes := chunks (length l) k l.

(** Merkle-Damgard padding: 0x80, zeros, then the bit length in [lw] bytes. *)
Definition md_pad (block lw : nat) (enc : nat -> Z -> bytes) (m : bytes) : bytes :=
  let n := length m in
  let z := Z.to_nat ((Z.of_nat block - (Z.of_nat n + 1 + Z.of_nat lw) mod Z.of_nat block) mod Z.of_nat block) in
  m ++ x80 :: zeros z ++ enc lw (8 * Z.of_nat n).

(** Word operations on [w]-bit words. *)
Definition wmask (w : Z) (x : Z) : Z := Z.land x (Z.ones w).
Definition rotr (w n x : Z) : Z := Z.lor (Z.shiftr x n) (wmask w (Z.shiftl x (w - n))).
Definition rotl (w n x : Z) : Z := Z.lor (wmask w (Z.shiftl x n)) (Z.shiftr x (w - n)).
Definition add32 (x y : Z) : Z := wmask 32 (x + y).
Definition wnot (w x : Z) : Z := Z.lxor x (Z.ones w).

(** ** SHA-2 (both word sizes share the structure). *)
Record sha2_params := {
  p_w : Z; p_S0 : Z * Z * Z; p_S1 : Z * Z * Z; p_s0 : Z * Z * Z; p_s1 : Z * Z * Z }.

Definition bsig (w : Z) (r : Z * Z * Z) (x : Z) : Z :=
  let '(a, b, c) := r in Z.lxor (Z.lxor (rotr w a x) (rotr w b x)) (rotr w c x).
Definition ssig (w : Z) (r : Z * Z * Z) (x : Z) : Z :=
  let '(a, b, c) := r in Z.lxor (Z.lxor (rotr w a x) (rotr w b x)) (Z.shiftr x c).

Fixpoint sha2_expand (P : sha2_params) (k : nat) (w : list Z) : list Z :=
  match k with
  | O => w
  | S k' =>
      let n := wmask (p_w P) (ssig (p_w P) (p_s1 P) (nth 1 w 0) + nth 6 w 0
                              + ssig (p_w P) (p_s0 P) (nth 14 w 0) + nth 15 w 0) in
      sha2_expand P k' (n :: w)
  end.

Record st8 := St8 { sa : Z; sb : Z; sc : Z; sd : Z; se : Z; sf : Z; sg : Z; sh : Z }.

Definition sha2_round (P : sha2_params) (s : st8) (kw : Z * Z) : st8 :=
  let w := p_w P in
  let '(k, wt) := kw in
  let ch := Z.lxor (Z.land (se s) (sf s)) (Z.land (wnot w (se s)) (sg s)) in
  let mj := Z.lxor (Z.lxor (Z.land (sa s) (sb s)) (Z.land (sa s) (sc s))) (Z.land (sb s) (sc s)) in
  let t1 := sh s + bsig w (p_S1 P) (se s) + ch + k + wt in
  let t2 := bsig w (p_S0 P) (sa s) + mj in
  St8 (wmask w (t1 + t2)) (sa s) (sb s) (sc s) (wmask w (sd s + t1)) (se s) (sf s) (sg s).

Definition sha2_block (P : sha2_params) (K : list Z) (extra : nat) (wb : nat) (h : st8) (blk : bytes) : st8 :=
  let w0 := map be_word (chunk wb blk) in
  let ws := rev (sha2_expand P extra (rev w0)) in
  let s := fold_left (sha2_round P) (combine K ws) h in
  let m := wmask (p_w P) in
  St8 (m (sa h + sa s)) (m (sb h + sb s)) (m (sc h + sc s)) (m (sd h + sd s))
      (m (se h + se s)) (m (sf h + sf s)) (m (sg h + sg s)) (m (sh h + sh s)).

Definition st8_bytes (k : nat) (s : st8) : bytes :=
  be_bytes k (sa s) ++ be_bytes k (sb s) ++ be_bytes k (sc s) ++ be_bytes k (sd s) ++
  be_bytes k (se s) ++ be_bytes k (sf s) ++ be_bytes k (sg s) ++ be_bytes k (sh s).

Definition K256 : list Z :=
  [1116352408; 1899447441; 3049323471; 3921009573; 961987163; 1508970993;
   2453635748; 2870763221; 3624381080; 310598401; 607225278; 1426881987;
   1925078388; 2162078206; 2614888103; 3248222580; 3835390401; 4022224774;
   264347078; 604807628; 770255983; 1249150122; 1555081692; 1996064986;
   2554220882; 2821834349; 2952996808; 3210313671; 3336571891; 3584528711;
   113926993; 338241895; 666307205; 773529912; 1294757372; 1396182291;
   1695183700; 1986661051; 2177026350; 2456956037; 2730485921; 2820302411;
   3259730800; 3345764771; 3516065817; 3600352804; 4094571909; 275423344;
   430227734; 506948616; 659060556; 883997877; 958139571; 1322822218;
   1537002063; 1747873779; 1955562222; 2024104815; 2227730452; 2361852424;
   2428436474; 2756734187; 3204031479; 3329325298].

Definition H256 : st8 := St8 1779033703 3144134277 1013904242 2773480762 1359893119 2600822924 528734635 1541459225.

Definition P256 : sha2_params :=
  {| p_w := 32; p_S0 := (2, 13, 22); p_S1 := (6, 11, 25); p_s0 := (7, 18, 3); p_s1 := (17, 19, 10) |}.

Definition sha256 (m : bytes) : bytes :=
  st8_bytes 4 (fold_left (sha2_block P256 K256 48 4) (chunk 64 (md_pad 64 8 be_bytes m)) H256).

Definition K512 : list Z :=
  [4794697086780616226; 8158064640168781261; 13096744586834688815;
   16840607885511220156; 4131703408338449720; 6480981068601479193;
   10538285296894168987; 12329834152419229976; 15566598209576043074;
   1334009975649890238; 2608012711638119052; 6128411473006802146;
   8268148722764581231; 9286055187155687089; 11230858885718282805;
   13951009754708518548; 16472876342353939154; 17275323862435702243;
   1135362057144423861; 2597628984639134821; 3308224258029322869;
   5365058923640841347; 6679025012923562964; 8573033837759648693;
   10970295158949994411; 12119686244451234320; 12683024718118986047;
   13788192230050041572; 14330467153632333762; 15395433587784984357;
   489312712824947311; 1452737877330783856; 2861767655752347644;
   3322285676063803686; 5560940570517711597; 5996557281743188959;
   7280758554555802590; 8532644243296465576; 9350256976987008742;
   10552545826968843579; 11727347734174303076; 12113106623233404929;
   14000437183269869457; 14369950271660146224; 15101387698204529176;
   15463397548674623760; 17586052441742319658; 1182934255886127544;
   1847814050463011016; 2177327727835720531; 2830643537854262169;
   3796741975233480872; 4115178125766777443; 5681478168544905931;
   6601373596472566643; 7507060721942968483; 8399075790359081724;
   8693463985226723168; 9568029438360202098; 10144078919501101548;
   10430055236837252648; 11840083180663258601; 13761210420658862357;
   14299343276471374635; 14566680578165727644; 15097957966210449927;
   16922976911328602910; 17689382322260857208; 500013540394364858;
   748580250866718886; 1242879168328830382; 1977374033974150939;
   2944078676154940804; 3659926193048069267; 4368137639120453308;
   4836135668995329356; 5532061633213252278; 6448918945643986474;
   6902733635092675308; 7801388544844847127].

Definition H512 : st8 := St8 7640891576956012808 13503953896175478587 4354685564936845355 11912009170470909681 5840696475078001361 11170449401992604703 2270897969802886507 6620516959819538809.

Definition P512 : sha2_params :=
  {| p_w := 64; p_S0 := (28, 34, 39); p_S1 := (14, 18, 41); p_s0 := (1, 8, 7); p_s1 := (19, 61, 6) |}.

Definition sha512 (m : bytes) : bytes :=
  st8_bytes 8 (fold_left (sha2_block P512 K512 64 8) (chunk 128 (md_pad 128 16 be_bytes m)) H512).

(** ** SHA-1 *)
Record st5 := St5 { ta : Z; tb : Z; tc : Z; td : Z; te : Z }.

Fixpoint sha1_expand (k : nat) (w : list Z) : list Z :=
  match k with
  | O => w
  | S k' =>
      let n := rotl 32 1 (Z.lxor (Z.lxor (nth 2 w 0) (nth 7 w 0)) (Z.lxor (nth 13 w 0) (nth 15 w 0))) in
      sha1_expand k' (n :: w)
  end.

Definition sha1_round (acc : Z * st5) (wt : Z) : Z * st5 :=
  let '(t, s) := acc in
  let b := tb s in let c := tc s in let d := td s in
  let '(f, k) :=
    if t <? 20 then (Z.lxor (Z.land b c) (Z.land (wnot 32 b) d), 1518500249)
    else if t <? 40 then (Z.lxor (Z.lxor b c) d, 1859775393)
    else if t <? 60 then (Z.lxor (Z.lxor (Z.land b c) (Z.land b d)) (Z.land c d), 2400959708)
    else (Z.lxor (Z.lxor b c) d, 3395469782) in
  let x := wmask 32 (rotl 32 5 (ta s) + f + te s + k + wt) in
  (t + 1, St5 x (ta s) (rotl 32 30 b) c d).

Definition sha1_block (h : st5) (blk : bytes) : st5 :=
  let ws := rev (sha1_expand 64 (rev (map be_word (chunk 4 blk)))) in
  let s := snd (fold_left sha1_round ws (0, h)) in
  St5 (add32 (ta h) (ta s)) (add32 (tb h) (tb s)) (add32 (tc h) (tc s))
      (add32 (td h) (td s)) (add32 (te h) (te s)).

Definition H160 : st5 := St5 1732584193 4023233417 2562383102 271733878 3285377520.

Definition sha1 (m : bytes) : bytes :=
  let s := fold_left sha1_block (chunk 64 (md_pad 64 8 be_bytes m)) H160 in
  be_bytes 4 (ta s) ++ be_bytes 4 (tb s) ++ be_bytes 4 (tc s) ++ be_bytes 4 (td s) ++ be_bytes 4 (te s).

(** ** RIPEMD-160 *)
Definition rmd_f (j : Z) (x y z : Z) : Z :=
  if j <? 16 then Z.lxor (Z.lxor x y) z
  else if j <? 32 then Z.lor (Z.land x y) (Z.land (wnot 32 x) z)
  else if j <? 48 then Z.lxor (Z.lor x (wnot 32 y)) z
  else if j <? 64 then Z.lor (Z.land x z) (Z.land y (wnot 32 z))
  else Z.lxor x (Z.lor y (wnot 32 z)).
Definition rmd_k (j : Z) : Z :=
  if j <? 16 then 0 else if j <? 32 then 1518500249 else if j <? 48 then 1859775393
  else if j <? 64 then 2400959708 else 2840853838.
Definition rmd_k' (j : Z) : Z :=
  if j <? 16 then 1352829926 else if j <? 32 then 1548603684 else if j <? 48 then 1836072691
  else if j <? 64 then 2053994217 else 0.

Definition rmd_r : list nat := ([0; 1; 2; 3; 4; 5; 6; 7; 8; 9; 10; 11; 12; 13; 14; 15;
   7; 4; 13; 1; 10; 6; 15; 3; 12; 0; 9; 5; 2; 14; 11; 8;
   3; 10; 14; 4; 9; 15; 8; 1; 2; 7; 0; 6; 13; 11; 5; 12;
   1; 9; 11; 10; 0; 8; 12; 4; 13; 3; 7; 15; 14; 5; 6; 2;
   4; 0; 5; 9; 7; 12; 2; 10; 14; 1; 3; 8; 11; 6; 15; 13])%nat.
Definition rmd_r' : list nat := ([5; 14; 7; 0; 9; 2; 11; 4; 13; 6; 15; 8; 1; 10; 3; 12;
   6; 11; 3; 7; 0; 13; 5; 10; 14; 15; 8; 12; 4; 9; 1; 2;
   15; 5; 1; 3; 7; 14; 6; 9; 11; 8; 12; 2; 10; 0; 4; 13;
   8; 6; 4; 1; 3; 11; 15; 0; 5; 12; 2; 13; 9; 7; 10; 14;
   12; 15; 10; 4; 1; 5; 8; 7; 6; 2; 13; 14; 0; 3; 9; 11])%nat.
Definition rmd_s : list Z := [11; 14; 15; 12; 5; 8; 7; 9; 11; 13; 14; 15; 6; 7; 9; 8;
   7; 6; 8; 13; 11; 9; 7; 15; 7; 12; 15; 9; 11; 7; 13; 12;
   11; 13; 6; 7; 14; 9; 13; 15; 14; 8; 13; 6; 5; 12; 7; 5;
   11; 12; 14; 15; 14; 15; 9; 8; 9; 14; 5; 6; 8; 6; 5; 12;
   9; 15; 5; 11; 6; 8; 13; 12; 5; 12; 13; 14; 11; 8; 5; 6].
Definition rmd_s' : list Z := [8; 9; 9; 11; 13; 15; 15; 5; 7; 7; 8; 11; 14; 14; 12; 6;
   9; 13; 15; 7; 12; 8; 9; 11; 7; 7; 12; 7; 6; 15; 13; 11;
   9; 7; 15; 11; 8; 6; 6; 14; 12; 13; 5; 14; 13; 13; 7; 5;
   15; 5; 8; 11; 14; 14; 6; 14; 6; 9; 12; 9; 12; 5; 15; 8;
   8; 5; 12; 9; 12; 5; 14; 6; 8; 13; 6; 5; 15; 13; 11; 11].

Definition rmd_round (fj : Z -> Z) (kj : Z -> Z) (X : list Z) (acc : Z * st5) (rs : nat * Z) : Z * st5 :=
  let '(j, s) := acc in
  let '(r, sh) := rs in
  let t := add32 (rotl 32 sh (wmask 32 (ta s + rmd_f (fj j) (tb s) (tc s) (td s) + nth r X 0 + kj j))) (te s) in
  (j + 1, St5 (te s) t (tb s) (rotl 32 10 (tc s)) (td s)).

Definition rmd_block (h : st5) (blk : bytes) : st5 :=
  let X := map le_word (chunk 4 blk) in
  let l := snd (fold_left (rmd_round (fun j => j) rmd_k X) (combine rmd_r rmd_s) (0, h)) in
  let r := snd (fold_left (rmd_round (fun j => 79 - j) rmd_k' X) (combine rmd_r' rmd_s') (0, h)) in
  let a3 x y z := wmask 32 (x + y + z) in
  St5 (a3 (tb h) (tc l) (td r)) (a3 (tc h) (td l) (te r)) (a3 (td h) (te l) (ta r))
      (a3 (te h) (ta l) (tb r)) (a3 (ta h) (tb l) (tc r)).

Definition ripemd160 (m : bytes) : bytes :=
  let s := fold_left rmd_block (chunk 64 (md_pad 64 8 le_bytes m)) H160 in
  le_bytes 4 (ta s) ++ le_bytes 4 (tb s) ++ le_bytes 4 (tc s) ++ le_bytes 4 (td s) ++ le_bytes 4 (te s).

(** ** HMAC (RFC 2104), Python's [hmac.new(key, msg, digestmod)]. *)
Definition hmac (block : nat) (H : bytes -> bytes) (key msg : bytes) : bytes :=
  let k0 := if Nat.ltb block (length key) then H key else key in
  let k1 := k0 ++ zeros (block - length k0) in
  let x c := map (fun b => Zb (Z.lxor (bZ b) c)) k1 in
  H (x 92 ++ H (x 54 ++ msg)).
Definition hmac_sha512 : bytes -> bytes -> bytes := hmac 128 sha512.
Definition hmac_sha256 : bytes -> bytes -> bytes := hmac 64 sha256.

(** bitforge/utils/encoding.py:122-124 *)
Definition double_sha256 (m : bytes) : bytes := sha256 (sha256 m).
(** bitforge/utils/encoding.py:127-129 *)
Definition hash160_u (m : bytes) : bytes := ripemd160 (sha256 m).

Lemma le_bytes_length k z : length (le_bytes k z) = k.
Proof. revert z; induction k as [|k IH]; intros z; cbn [le_bytes length]; [|rewrite IH]; reflexivity. Qed.
Lemma be_bytes_length k z : length (be_bytes k z) = k.
Proof. unfold be_bytes. rewrite rev_length. apply le_bytes_length. Qed.
Lemma st8_bytes_length k s : length (st8_bytes k s) = (8 * k)%nat.
Proof. unfold st8_bytes. rewrite !app_length, !be_bytes_length. lia. Qed.

Lemma sha256_length m : length (sha256 m) = 32%nat.
Proof. unfold sha256. rewrite st8_bytes_length. reflexivity. Qed.
Lemma sha512_length m : length (sha512 m) = 64%nat.
Proof. unfold sha512. rewrite st8_bytes_length. reflexivity. Qed.
Lemma sha1_length m : length (sha1 m) = 20%nat.
Proof. unfold sha1. cbv zeta. rewrite !app_length, !be_bytes_length. reflexivity. Qed.
Lemma ripemd160_length m : length (ripemd160 m) = 20%nat.
Proof. unfold ripemd160. cbv zeta. rewrite !app_length, !le_bytes_length. reflexivity. Qed.
Lemma double_sha256_length m : length (double_sha256 m) = 32%nat.
Proof. apply sha256_length. Qed.
Lemma hmac_sha512_length k m : length (hmac_sha512 k m) = 64%nat.
Proof. apply sha512_length. Qed.

(** Proofs never look inside the hashes. *)
Arguments sha256 : simpl never.
Arguments sha512 : simpl never.
Arguments sha1 : simpl never.
Arguments ripemd160 : simpl never.
Arguments double_sha256 : simpl never.
Arguments hash160_u : simpl never.
Arguments hmac_sha512 : simpl never.
Arguments hmac_sha256 : simpl never.
