(** Specification of IIIF request syntax, independent of the parser model.
    Only the result types ([f32], [region], [size], ...) are shared with
    [LayaModel]; no parsing function of the model is used here. *)

From Coq Require Import ZArith NArith List String Ascii Bool.
From Verif Require Import LayaModel.
Import ListNotations.
Local Open Scope string_scope.

(** ** Characters and digit strings *)

Definition chars (s : string) : list ascii := list_ascii_of_string s.

(** [c] does not occur in [s]. *)
Definition free_of (c : ascii) (s : string) : Prop := ~ In c (chars s).

Definition digit_value (a : ascii) : option Z :=
  match a with
  | "0" => Some 0%Z | "1" => Some 1%Z | "2" => Some 2%Z | "3" => Some 3%Z
  | "4" => Some 4%Z | "5" => Some 5%Z | "6" => Some 6%Z | "7" => Some 7%Z
  | "8" => Some 8%Z | "9" => Some 9%Z | _ => None
  end%char.

(** [digits s v]: [s] is a (possibly empty) string of decimal digits with
    positional value [v]. *)
Inductive digits : string -> Z -> Prop :=
| digits_nil : digits "" 0
| digits_cons : forall a d r v,
    digit_value a = Some d -> digits r v ->
    digits (String a r) (d * 10 ^ Z.of_nat (String.length r) + v)%Z.

(** ** Numbers *)

(** A u32 literal: optional plus sign, at least one digit, fits in 32 bits. *)
Definition u32_literal (s : string) (n : Z) : Prop :=
  exists sign ds,
    (sign = "" \/ sign = "+") /\ s = sign ++ ds /\ ds <> "" /\
    digits ds n /\ (n < 2 ^ 32)%Z.

(** The optional exponent part of a float literal, with its value. *)
Definition exponent_part (s : string) (x : Z) : Prop :=
  (s = "" /\ x = 0%Z) \/
  (exists e sign ds v,
     (e = "e" \/ e = "E") /\ (sign = "" \/ sign = "+" \/ sign = "-") /\
     ds <> "" /\ digits ds v /\ s = e ++ sign ++ ds /\
     x = (if String.eqb sign "-" then - v else v)%Z).

(** An unsigned decimal: digits with at most one point (at least one digit in
    all) and an optional exponent; it denotes [m * 10^p]. *)
Definition decimal (s : string) (m p : Z) : Prop :=
  exists ip fp dot ex x,
    (dot = "." \/ (dot = "" /\ fp = "")) /\ ip ++ fp <> "" /\
    digits (ip ++ fp) m /\ exponent_part ex x /\
    s = ip ++ dot ++ fp ++ ex /\ p = (x - Z.of_nat (String.length fp))%Z.

(** Canonical finite binary32 values. *)
Definition canonical (m e : Z) : Prop :=
  (0 <= m < 2 ^ 24 /\ -149 <= e <= 104 /\ (2 ^ 23 <= m \/ e = -149))%Z.

(** A finite binary32 value as a multiple of 2^-149. *)
Definition units (m e : Z) : Z := (m * 2 ^ (e + 149))%Z.

(** Distance between the rational [num/den] and the binary32 value (m,e),
    scaled by [den * 2^149]. *)
Definition distance (num den m e : Z) : Z := Z.abs (num * 2 ^ 149 - units m e * den).

(** [f] is the magnitude nearest to [num/den] (ties to the even significand);
    infinity from 2^128 - 2^103 on. *)
Definition nearest (num den : Z) (f : option (Z * Z)) : Prop :=
  match f with
  | Some (m, e) =>
      (num < (2 ^ 128 - 2 ^ 103) * den)%Z /\ canonical m e /\
      forall m' e', canonical m' e' ->
        (distance num den m e <= distance num den m' e')%Z /\
        (distance num den m e = distance num den m' e' ->
         units m' e' = units m e \/ Z.even m = true)
  | None => ((2 ^ 128 - 2 ^ 103) * den <= num)%Z
  end.

Definition signed (neg : bool) (f : option (Z * Z)) : f32 :=
  match f with Some (m, e) => F32fin neg m e | None => F32inf neg end.

(** Case-insensitive equality with a lower-case ASCII word. *)
Inductive spelled : string -> string -> Prop :=
| spelled_nil : spelled "" ""
| spelled_same : forall a s w, spelled s w -> spelled (String a s) (String a w)
| spelled_upper : forall n s w, (n < 26)%N -> spelled s w ->
    spelled (String (ascii_of_N (65 + n)) s) (String (ascii_of_N (97 + n)) w).

(** A float literal and the binary32 value it denotes. *)
Definition f32_literal (s : string) (f : f32) : Prop :=
  exists sign neg body,
    ((sign = "-" /\ neg = true) \/ ((sign = "+" \/ sign = "") /\ neg = false)) /\
    s = sign ++ body /\
    ((exists m p g, decimal body m p /\ f = signed neg g /\
        nearest (m * 10 ^ Z.max 0 p) (10 ^ Z.max 0 (- p)) g) \/
     ((spelled body "inf" \/ spelled body "infinity") /\ f = F32inf neg) \/
     (spelled body "nan" /\ f = F32nan)).

(** Comparisons of a binary32 value with integers. *)
Definition f32_positive (f : f32) : Prop :=
  match f with
  | F32nan => False
  | F32inf neg => neg = false
  | F32fin neg m _ => neg = false /\ (0 < m)%Z
  end.

Definition f32_nonnegative (f : f32) : Prop :=
  match f with
  | F32nan => False
  | F32inf neg => neg = false
  | F32fin neg m _ => neg = false \/ m = 0%Z
  end.

Definition f32_at_most (f : f32) (c : Z) : Prop :=
  match f with
  | F32nan => False
  | F32inf neg => neg = true
  | F32fin neg m e => neg = true \/ (units m e <= c * 2 ^ 149)%Z
  end.

(** ** IIIF Image API parameters as the server understands them *)

Definition region_text (s : string) (r : region) : Prop :=
  match r with
  | Full => s = "full"
  | Square => s = "square"
  | Absolute x y w h =>
      exists sx sy sw sh,
        s = sx ++ "," ++ sy ++ "," ++ sw ++ "," ++ sh /\
        u32_literal sx x /\ u32_literal sy y /\ u32_literal sw w /\ u32_literal sh h /\
        (0 < w)%Z /\ (0 < h)%Z
  | Percentage x y w h =>
      exists sx sy sw sh,
        s = "pct:" ++ sx ++ "," ++ sy ++ "," ++ sw ++ "," ++ sh /\
        f32_literal sx x /\ f32_literal sy y /\ f32_literal sw w /\ f32_literal sh h /\
        f32_positive x /\ f32_positive y /\ f32_positive w /\ f32_positive h
  end.

Definition dimension_text (s : string) (n : Z) : Prop := u32_literal s n /\ (0 < n)%Z.

Definition optional_dimension_text (s : string) (o : option Z) : Prop :=
  match o with None => s = "" | Some n => dimension_text s n end.

Definition scale_text (up : bool) (s : string) (sc : scale) : Prop :=
  match sc with
  | Max => s = "max"
  | ScalePercentage f =>
      exists t, s = "pct:" ++ t /\ f32_literal t f /\ f32_positive f /\
                (up = true \/ f32_at_most f 100)
  | Fixed w h =>
      exists sw sh, s = sw ++ "," ++ sh /\ (w <> None \/ h <> None) /\
        optional_dimension_text sw w /\ optional_dimension_text sh h
  | AspectPreserving w h =>
      exists sw sh, s = "!" ++ sw ++ "," ++ sh /\ dimension_text sw w /\ dimension_text sh h
  end.

Definition size_text (s : string) (z : size) : Prop :=
  exists t, s = (if upscale z then "^" else "") ++ t /\
            scale_text (upscale z) t (size_scale z).

Definition rotation_text (s : string) (r : rotation) : Prop :=
  exists t, s = (if mirror r then "!" else "") ++ t /\ f32_literal t (degrees r) /\
            f32_nonnegative (degrees r) /\ f32_at_most (degrees r) 360.

Definition quality_name (q : quality) : string :=
  match q with Color => "color" | Gray => "gray" | Bitonal => "bitonal" | QDefault => "default" end.

Definition format_name (f : format) : string :=
  match f with
  | Jpg => "jpg" | Tif => "tif" | Png => "png" | Gif => "gif" | Jp2 => "jp2"
  | Pdf => "pdf" | Webp => "webp"
  end.

(** ** Percent encoding and UTF-8 *)

Definition hex_value (a : ascii) : option Z :=
  match digit_value a with
  | Some d => Some d
  | None => match a with
            | "a" | "A" => Some 10%Z | "b" | "B" => Some 11%Z | "c" | "C" => Some 12%Z
            | "d" | "D" => Some 13%Z | "e" | "E" => Some 14%Z | "f" | "F" => Some 15%Z
            | _ => None
            end%char
  end.

(** [pct_encodes e s]: [e] is a percent-encoding of the byte string [s], i.e.
    every byte is either itself (never % or /) or an escape %XX with hex digits
    of either case. *)
Inductive pct_encodes : string -> string -> Prop :=
| pct_nil : pct_encodes "" ""
| pct_literal : forall a e s, a <> "%"%char -> a <> "/"%char -> pct_encodes e s ->
    pct_encodes (String a e) (String a s)
| pct_escape : forall a h1 h2 d1 d2 e s,
    hex_value h1 = Some d1 -> hex_value h2 = Some d2 ->
    Z.of_N (N_of_ascii a) = (16 * d1 + d2)%Z -> pct_encodes e s ->
    pct_encodes (String "%" (String h1 (String h2 e))) (String a s).

(** [hex_pair e]: [e] starts with two hexadecimal digits. *)
Definition hex_pair (e : string) : Prop :=
  match e with
  | String h1 (String h2 _) => hex_value h1 <> None /\ hex_value h2 <> None
  | _ => False
  end.

(** Decoding of an arbitrary segment: as above, but any character other than %
    stands for itself, and so does a % that is not followed by two hex digits. *)
Inductive pct_decodes : string -> string -> Prop :=
| dec_nil : pct_decodes "" ""
| dec_literal : forall a e s, a <> "%"%char -> pct_decodes e s ->
    pct_decodes (String a e) (String a s)
| dec_escape : forall a h1 h2 d1 d2 e s,
    hex_value h1 = Some d1 -> hex_value h2 = Some d2 ->
    Z.of_N (N_of_ascii a) = (16 * d1 + d2)%Z -> pct_decodes e s ->
    pct_decodes (String "%" (String h1 (String h2 e))) (String a s)
| dec_stray : forall e s, ~ hex_pair e -> pct_decodes e s ->
    pct_decodes (String "%" e) (String "%" s).

(** Unicode scalar values and their UTF-8 encoding. *)
Definition scalar_value (n : Z) : Prop :=
  (0 <= n < 55296 \/ 57344 <= n < 1114112)%Z.

Definition chr (z : Z) : ascii := ascii_of_N (Z.to_N z).

Definition utf8_of_scalar (n : Z) : string :=
  (if n <? 128 then String (chr n) ""
   else if n <? 2048 then
     String (chr (192 + n / 64)) (String (chr (128 + n mod 64)) "")
   else if n <? 65536 then
     String (chr (224 + n / 4096)) (String (chr (128 + n / 64 mod 64))
       (String (chr (128 + n mod 64)) ""))
   else
     String (chr (240 + n / 262144)) (String (chr (128 + n / 4096 mod 64))
       (String (chr (128 + n / 64 mod 64)) (String (chr (128 + n mod 64)) ""))))%Z.

Fixpoint utf8_of_scalars (l : list Z) : string :=
  match l with
  | [] => ""
  | n :: r => utf8_of_scalar n ++ utf8_of_scalars r
  end.

(** [s] is the UTF-8 encoding of some text. *)
Definition utf8_text (s : string) : Prop :=
  exists l, Forall scalar_value l /\ s = utf8_of_scalars l.

(** ** IIIF image request URIs *)

(** [path] is an image request for [r]: / identifier / region / size /
    rotation / quality . format, possibly followed by further segments. *)
Definition image_uri (path : string) (r : image_request) (rest : string) : Prop :=
  exists ident reg sz rot,
    path = "/" ++ ident ++ "/" ++ reg ++ "/" ++ sz ++ "/" ++ rot ++ "/"
           ++ quality_name (req_quality r) ++ "." ++ format_name (req_format r) ++ rest /\
    free_of "/" ident /\ pct_decodes ident (identifier r) /\ utf8_text (identifier r) /\
    region_text reg (req_region r) /\ size_text sz (req_size r) /\
    rotation_text rot (req_rotation r).

(** What may follow the format: nothing, or further segments. *)
Definition trailing (rest : string) : Prop := rest = "" \/ exists t, rest = "/" ++ t.

(** ** Region errors *)

(** [l] is the list of comma-separated pieces of [t]. *)
Definition comma_pieces (t : string) (l : list string) : Prop :=
  l <> [] /\ Forall (free_of ",") l /\ t = String.concat "," l.

(** Selector number [i] (0..3 for x, y, width, height) is acceptable. *)
Definition good_selector (pct : bool) (i : nat) (p : string) : Prop :=
  if pct then exists f, f32_literal p f /\ f32_positive f
  else exists n, u32_literal p n /\ ((i <= 1)%nat \/ (0 < n)%Z).

(** The error that describes what is wrong with selector number [i];
    [show] prints a binary32 number. *)
Definition selector_error (show : f32 -> string) (pct : bool) (i : nat) (p : string)
    (e : parse_error) : Prop :=
  if pct then
    ((forall f, ~ f32_literal p f) /\ e = RegionSelectorUnparsable p i) \/
    (exists f, f32_literal p f /\ ~ f32_positive f /\ e = RegionPercentageOutOfBounds (show f) i)
  else
    ((forall n, ~ u32_literal p n) /\ e = RegionSelectorUnparsable p i) \/
    (u32_literal p 0 /\ (2 <= i)%nat /\ e = RegionSelectorOutOfBounds "0" i).

(** The first faulty selector of the selector list [t], or a wrong count when
    all present selectors (up to four) are fine. *)
Definition region_fault (show : f32 -> string) (pct : bool) (t : string) (e : parse_error) : Prop :=
  exists l, comma_pieces t l /\
    ((exists i p, nth_error l i = Some p /\ (i < 4)%nat /\
        (forall j q, (j < i)%nat -> nth_error l j = Some q -> good_selector pct j q) /\
        selector_error show pct i p e) \/
     (List.length l <> 4%nat /\
        (forall j q, (j < 4)%nat -> nth_error l j = Some q -> good_selector pct j q) /\
        e = RegionSelectorCount t)).

(** ** Lexical path resolution (no symbolic links) *)

(** Components of a slash-separated path after dropping empty and "."
    components and resolving ".."; [up] is the stack of components so far,
    innermost first.  ".." at the root stays at the root. *)
Fixpoint pieces (s : string) (cur : string) : list string :=
  match s with
  | EmptyString => [cur]
  | String a r => if Ascii.eqb a "/" then cur :: pieces r "" else pieces r (cur ++ String a "")
  end.

Fixpoint walk (stack : list string) (l : list string) : list string :=
  match l with
  | [] => stack
  | c :: r =>
      if String.eqb c "" || String.eqb c "." then walk stack r
      else if String.eqb c ".." then walk (tl stack) r
      else walk (c :: stack) r
  end.

(** Absolute location (outermost first) of an absolute path. *)
Definition location (s : string) : list string := rev (walk [] (pieces s "")).

(** [inside dir p]: location [p] is [dir] or below it. *)
Definition inside (dir p : list string) : Prop := exists below, p = (dir ++ below)%list.

(** ** Explicit numeric bounds *)

(** The decimal [m * 10^p] is at most the rational [a / b]. *)
Definition dec_le (m p a b : Z) : Prop :=
  (m * 10 ^ Z.max 0 p * b <= a * 10 ^ Z.max 0 (- p))%Z.

(** [t] is an unsigned number (an optional plus sign is allowed) denoting [m * 10^p]. *)
Definition plus_decimal (t : string) (m p : Z) : Prop :=
  exists sign body, (sign = "" \/ sign = "+") /\ t = sign ++ body /\ decimal body m p.

(** [t] is a number with a minus sign denoting [- m * 10^p]. *)
Definition minus_decimal (t : string) (m p : Z) : Prop :=
  exists body, t = "-" ++ body /\ decimal body m p.

(** [t] spells positive infinity. *)
Definition plus_infinity (t : string) : Prop :=
  exists sign body, (sign = "" \/ sign = "+") /\ t = sign ++ body /\
    (spelled body "inf" \/ spelled body "infinity").
