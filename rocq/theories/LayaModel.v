(** Model of the laya IIIF server: request parsing, routing and path resolution.
    Sources: /repo/src/iiif.rs, /repo/src/iiif/parse.rs, /repo/src/http.rs,
    /repo/src/resolve.rs.

    Rust strings are Coq [string]s, i.e. sequences of 8-bit characters (the
    UTF-8 bytes of the Rust string). *)

From Coq Require Import ZArith NArith List String Ascii Bool Lia.
Import ListNotations.
Local Open Scope string_scope.
Local Open Scope list_scope.

(** Rust [Result]. *)
Inductive result (A E : Type) : Type :=
| Ok (a : A)
| Err (e : E).
Arguments Ok {A E} a.
Arguments Err {A E} e.

(** A Rust computation that may panic. *)
Inductive outcome (A : Type) : Type :=
| Done (a : A)
| Panic.
Arguments Done {A} a.
Arguments Panic {A}.

(** ** [str] methods of the Rust standard library used by the code *)

(** [str::split(char)] (used at src/iiif/parse.rs:35 and src/http.rs:57):
    always at least one piece. *)
Fixpoint split_on (c : ascii) (s : string) : list string :=
  match s with
  | EmptyString => [""%string]
  | String a r =>
      if Ascii.eqb a c then ""%string :: split_on c r
      else match split_on c r with
           | h :: t => String a h :: t
           | [] => [String a ""%string]
           end
  end.

(** [str::split_once(char)] (src/iiif/parse.rs:113, src/http.rs:87). *)
Fixpoint split_once (c : ascii) (s : string) : option (string * string) :=
  match s with
  | EmptyString => None
  | String a r =>
      if Ascii.eqb a c then Some (""%string, r)
      else match split_once c r with
           | Some (x, y) => Some (String a x, y)
           | None => None
           end
  end.

(** [str::strip_prefix(&str)] (src/iiif/parse.rs:19,99). *)
Fixpoint strip_prefix (p s : string) : option string :=
  match p, s with
  | EmptyString, _ => Some s
  | String a p', String b s' => if Ascii.eqb a b then strip_prefix p' s' else None
  | String _ _, EmptyString => None
  end.

(** [str::starts_with(&str)]. *)
Definition starts_with (p s : string) : bool :=
  match strip_prefix p s with Some _ => true | None => false end.

(** [str::ends_with(&str)] (src/http.rs:28). *)
Fixpoint ends_with (p s : string) : bool :=
  String.eqb s p ||
  match s with
  | EmptyString => false
  | String _ r => ends_with p r
  end.

Definition code (a : ascii) : Z := Z.of_N (N_of_ascii a).

Definition is_digit (a : ascii) : bool := ((48 <=? code a) && (code a <=? 57))%Z.

Definition digit (a : ascii) : Z := (code a - 48)%Z.

(** ** [str::parse::<u32>] (core::num::from_str_radix for an unsigned type):
    empty input and a lone sign are errors, one leading [+] is allowed,
    anything but ASCII digits and any overflow are errors. *)

Fixpoint u32_digits (s : string) (acc : Z) : option Z :=
  match s with
  | EmptyString => Some acc
  | String a r =>
      if is_digit a then
        let v := (10 * acc + digit a)%Z in
        if (v <? 4294967296)%Z then u32_digits r v else None
      else None
  end.

Definition parse_u32 (s : string) : option Z :=
  match s with
  | EmptyString => None
  | String "+" EmptyString => None
  | String "+" r => u32_digits r 0
  | _ => u32_digits s 0
  end.

(** ** Binary32 numbers *)

(** A finite value is (-1)^neg * m * 2^e with [0 <= m < 2^24], [-149 <= e <= 104],
    and [2^23 <= m] unless [e = -149].  NaN payloads are not represented. *)
Inductive f32 : Type :=
| F32nan
| F32inf (neg : bool)
| F32fin (neg : bool) (m e : Z).

(** Nearest binary32, ties to even, of the non-negative rational [num/den].
    This is the specification of Rust's [f32::from_str] ("correctly rounded");
    the standard library's algorithm (core::num::dec2flt) is not transcribed. *)
Definition log2_rat (num den : Z) : Z :=
  let k := (Z.log2 num - Z.log2 den)%Z in
  (* is num/den < 2^k ? *)
  if (if (0 <=? k)%Z then (num <? den * 2 ^ k)%Z else (num * 2 ^ (- k) <? den)%Z)
  then (k - 1)%Z else k.

Definition round_half_even (num den : Z) : Z :=
  let q := (num / den)%Z in
  let r := (num mod den)%Z in
  if (2 * r <? den)%Z then q
  else if (den <? 2 * r)%Z then (q + 1)%Z
  else if Z.even q then q else (q + 1)%Z.

Definition round_f32 (neg : bool) (num den : Z) : f32 :=
  if (num =? 0)%Z then F32fin neg 0 (-149) else
  let e := Z.max (-149) (log2_rat num den - 23) in
  let m := if (0 <=? e)%Z then round_half_even num (den * 2 ^ e)
           else round_half_even (num * 2 ^ (- e)) den in
  let '(m, e) := if (m =? 16777216)%Z then (8388608%Z, (e + 1)%Z) else (m, e) in
  if (104 <? e)%Z then F32inf neg else F32fin neg m e.

(** ** [str::parse::<f32>] (core::num::dec2flt): grammar.
    Simplification: the exponent digits are read without the saturation that the
    standard library applies beyond 655359; with inputs shorter than 64 KiB (the
    limit on URIs in the http crate) this makes no difference to the result. *)

(** Reads a maximal run of ASCII digits: (value of acc followed by the digits,
    how many digits, rest). *)
Fixpoint take_digits (s : string) (acc : Z) (n : Z) : Z * Z * string :=
  match s with
  | String a r => if is_digit a then take_digits r (10 * acc + digit a)%Z (n + 1)%Z
                  else (acc, n, s)
  | EmptyString => (acc, n, s)
  end.

(** [parse_scientific]: the text after 'e' or 'E'. *)
Definition parse_exponent (s : string) : option Z :=
  let '(neg, s) := match strip_prefix "-" s with
                   | Some r => (true, r)
                   | None => match strip_prefix "+" s with
                             | Some r => (false, r)
                             | None => (false, s)
                             end
                   end in
  let '(v, n, rest) := take_digits s 0 0 in
  if (n =? 0)%Z then None
  else match rest with
       | EmptyString => Some (if neg then (- v)%Z else v)
       | _ => None
       end.

(** [parse_number]: unsigned decimal, as (mantissa, power of ten). *)
Definition parse_number (s : string) : option (Z * Z) :=
  let '(ip, n1, rest) := take_digits s 0 0 in
  let '(m, n2, rest) := match strip_prefix "." rest with
                        | Some r => take_digits r ip 0
                        | None => (ip, 0%Z, rest)
                        end in
  if (n1 + n2 =? 0)%Z then None
  else match rest with
       | EmptyString => Some (m, (- n2)%Z)
       | String a r =>
           if Ascii.eqb a "e" || Ascii.eqb a "E" then
             match parse_exponent r with
             | Some x => Some (m, (x - n2)%Z)
             | None => None
             end
           else None
       end.

Definition lower (a : ascii) : ascii :=
  if ((65 <=? code a) && (code a <=? 90))%Z
  then ascii_of_N (N_of_ascii a + 32)%N else a.

Fixpoint lower_str (s : string) : string :=
  match s with
  | EmptyString => EmptyString
  | String a r => String (lower a) (lower_str r)
  end.

(** [parse_inf_nan]: case-insensitive "inf", "infinity", "nan". *)
Definition parse_inf_nan (s : string) (neg : bool) : option f32 :=
  let l := lower_str s in
  if String.eqb l "inf" || String.eqb l "infinity" then Some (F32inf neg)
  else if String.eqb l "nan" then Some F32nan
  else None.

Definition scaled_f32 (neg : bool) (m p : Z) : f32 :=
  if (0 <=? p)%Z then round_f32 neg (m * 10 ^ p) 1
  else round_f32 neg m (10 ^ (- p)).

Definition parse_f32 (s : string) : option f32 :=
  match s with
  | EmptyString => None
  | String a r =>
      let neg := Ascii.eqb a "-" in
      let body := if Ascii.eqb a "-" || Ascii.eqb a "+" then r else s in
      match body with
      | EmptyString => None
      | _ => match parse_number body with
             | Some (m, p) => Some (scaled_f32 neg m p)
             | None => parse_inf_nan body neg
             end
      end
  end.

(** [x > 0.0] on f32. *)
Definition f32_gt0 (x : f32) : bool :=
  match x with
  | F32nan => false
  | F32inf neg => negb neg
  | F32fin neg m _ => negb neg && (0 <? m)%Z
  end.

(** [x >= 0.0] on f32 (-0.0 >= 0.0 holds). *)
Definition f32_ge0 (x : f32) : bool :=
  match x with
  | F32nan => false
  | F32inf neg => negb neg
  | F32fin neg m _ => negb neg || (m =? 0)%Z
  end.

(** [x <= c] on f32 for a non-negative integer constant [c]. *)
Definition f32_le_int (x : f32) (c : Z) : bool :=
  match x with
  | F32nan => false
  | F32inf neg => neg
  | F32fin neg m e =>
      neg || (if (0 <=? e)%Z then (m * 2 ^ e <=? c)%Z else (m <=? c * 2 ^ (- e))%Z)
  end.

(** ** Data types of src/iiif.rs *)

(** src/iiif.rs: [enum Region]. *)
Inductive region : Type :=
| Full
| Square
| Absolute (x y width height : Z)
| Percentage (x y width height : f32).

(** src/iiif.rs: [enum Scale]; [Option<NonZero<u32>>] is [option Z]. *)
Inductive scale : Type :=
| Max
| ScalePercentage (p : f32)
| Fixed (width height : option Z)
| AspectPreserving (width height : Z).

(** src/iiif.rs: [struct Size]. *)
Record size : Type := mkSize { size_scale : scale; upscale : bool }.

(** src/iiif.rs: [struct Rotation]. *)
Record rotation : Type := mkRotation { degrees : f32; mirror : bool }.

Inductive quality : Type := Color | Gray | Bitonal | QDefault.

Inductive format : Type := Jpg | Tif | Png | Gif | Jp2 | Pdf | Webp.

(** src/iiif.rs: [struct ImageRequest]. *)
Record image_request : Type := mkRequest {
  identifier : string;
  req_region : region;
  req_size : size;
  req_rotation : rotation;
  req_quality : quality;
  req_format : format
}.

(** src/iiif/parse.rs:213-256 [enum ParseError]. *)
Inductive parse_error : Type :=
| RegionSelectorUnparsable (input : string) (index : nat)
| RegionSelectorOutOfBounds (input : string) (index : nat)
| RegionPercentageOutOfBounds (input : string) (index : nat)
| RegionSelectorCount (input : string)
| SizeMissingComma (input : string)
| SizeMissingDimensions (input : string)
| SizeDimensionUnparsable (input : string)
| SizePercentageOutOfBounds (input : string)
| SizeDimensionOutOfBounds (input : string)
| SizePercentageUnparsable (input : string)
| RotationAngleUnparsable (input : string)
| RotationOutOfBounds (input : string)
| UnrecognisedQuality (input : string)
| UnrecognisedFormat (input : string).

(** src/http.rs:103-112 [enum ImageRequestError]. *)
Inductive request_error : Type :=
| UriMissingElement (element : string)
| UriNotUtf8 (element : string)
| RequestParseError (e : parse_error).

Section Parsing.
(** [<f32 as ToString>::to_string]; only used to build error messages.  Left
    abstract: the theorems hold for every such function. *)
Variable f32_to_string : f32 -> string.

(** src/iiif/parse.rs:31-52 [parse_region_selectors], generic in the selector
    type as in the source: [parse] is [T::from_str], [validate] is
    [T::validate].  [parts] is what is left in the [split] iterator, [index] and
    [n] are the loop counter and the number of remaining slots. *)
Fixpoint region_selectors_loop {T : Type} (parse : string -> option T)
    (validate : T -> nat -> result T parse_error) (input : string)
    (parts : list string) (index n : nat) : result (list T) parse_error :=
  match n with
  | O => match parts with
         | [] => Ok []
         | _ :: _ => Err (RegionSelectorCount input)
         end
  | S n' =>
      match parts with
      | [] => Err (RegionSelectorCount input)
      | s :: rest =>
          match parse s with
          | None => Err (RegionSelectorUnparsable s index)
          | Some v =>
              match validate v index with
              | Err e => Err e
              | Ok v => match region_selectors_loop parse validate input rest (S index) n' with
                        | Ok l => Ok (v :: l)
                        | Err e => Err e
                        end
              end
          end
      end
  end.

Definition parse_region_selectors {T : Type} (parse : string -> option T)
    (validate : T -> nat -> result T parse_error) (input : string)
    : result (list T) parse_error :=
  region_selectors_loop parse validate input (split_on "," input) 0 4.

(** Decimal text of a u32 ([u32::to_string]); only ever applied to 0 here
    (src/iiif/parse.rs:75), where it is "0". *)
Definition zero_to_string : string := "0".

(** src/iiif/parse.rs:58-67 [impl SpatialSelector for f32]. *)
Definition validate_f32 (value : f32) (index : nat) : result f32 parse_error :=
  if f32_gt0 value then Ok value
  else Err (RegionPercentageOutOfBounds (f32_to_string value) index).

(** src/iiif/parse.rs:69-78 [impl SpatialSelector for u32]. *)
Definition validate_u32 (value : Z) (index : nat) : result Z parse_error :=
  if (index <=? 1)%nat || (0 <? value)%Z then Ok value
  else Err (RegionSelectorOutOfBounds zero_to_string index).

(** src/iiif/parse.rs:11-29 [impl FromStr for Region].  The array pattern
    [x, y, width, height] is total in Rust; the extra list shapes below cannot
    occur (the loop returns four elements). *)
Definition parse_region (s : string) : result region parse_error :=
  if String.eqb s "full" then Ok Full
  else if String.eqb s "square" then Ok Square
  else match strip_prefix "pct:" s with
       | Some input =>
           match parse_region_selectors parse_f32 validate_f32 input with
           | Ok [x; y; w; h] => Ok (Percentage x y w h)
           | Ok _ => Err (RegionSelectorCount input)
           | Err e => Err e
           end
       | None =>
           match parse_region_selectors parse_u32 validate_u32 s with
           | Ok [x; y; w; h] => Ok (Absolute x y w h)
           | Ok _ => Err (RegionSelectorCount s)
           | Err e => Err e
           end
       end.

(** src/iiif/parse.rs:138-150 [parse_scale_percent]. *)
Definition parse_scale_percent (s : string) (up : bool) : result size parse_error :=
  match parse_f32 s with
  | None => Err (SizePercentageUnparsable s)
  | Some v =>
      if f32_gt0 v && (f32_le_int v 100 || up)
      then Ok (mkSize (ScalePercentage v) up)
      else Err (SizePercentageOutOfBounds s)
  end.

(** src/iiif/parse.rs:152-158 [parse_scale_px]. *)
Definition parse_scale_px (input : string) : result Z parse_error :=
  match parse_u32 input with
  | None => Err (SizeDimensionUnparsable input)
  | Some v => if (v =? 0)%Z then Err (SizeDimensionOutOfBounds input) else Ok v
  end.

(** The optional-dimension step of src/iiif/parse.rs:122-131. *)
Definition parse_opt_px (s : string) : result (option Z) parse_error :=
  match s with
  | EmptyString => Ok None
  | _ => match parse_scale_px s with
         | Ok v => Ok (Some v)
         | Err e => Err e
         end
  end.

(** src/iiif/parse.rs:90-136 [impl FromStr for Size]. *)
Definition parse_size (s0 : string) : result size parse_error :=
  let '(up, s) := match strip_prefix "^" s0 with Some r => (true, r) | None => (false, s0) end in
  if String.eqb s "max" then Ok (mkSize Max up)
  else match strip_prefix "pct:" s with
  | Some p => parse_scale_percent p up
  | None =>
      let '(preserve, s) := match strip_prefix "!" s with Some r => (true, r) | None => (false, s) end in
      if String.eqb s "," then Err (SizeMissingDimensions s)
      else match split_once "," s with
      | None => Err (SizeMissingComma s)
      | Some (width, height) =>
          if preserve then
            match parse_scale_px width with
            | Err e => Err e
            | Ok w => match parse_scale_px height with
                      | Err e => Err e
                      | Ok h => Ok (mkSize (AspectPreserving w h) up)
                      end
            end
          else
            match parse_opt_px width with
            | Err e => Err e
            | Ok w => match parse_opt_px height with
                      | Err e => Err e
                      | Ok h => Ok (mkSize (Fixed w h) up)
                      end
            end
      end
  end.

(** src/iiif/parse.rs:160-180 [impl FromStr for Rotation]. *)
Definition parse_rotation (s : string) : result rotation parse_error :=
  let '(mir, r) := match strip_prefix "!" s with Some r => (true, r) | None => (false, s) end in
  match parse_f32 r with
  | None => Err (RotationAngleUnparsable r)
  | Some d => if f32_ge0 d && f32_le_int d 360 then Ok (mkRotation d mir)
              else Err (RotationOutOfBounds r)
  end.

(** src/iiif/parse.rs:182-194 [impl FromStr for Quality]. *)
Definition parse_quality (s : string) : result quality parse_error :=
  if String.eqb s "color" then Ok Color
  else if String.eqb s "gray" then Ok Gray
  else if String.eqb s "bitonal" then Ok Bitonal
  else if String.eqb s "default" then Ok QDefault
  else Err (UnrecognisedQuality s).

(** src/iiif/parse.rs:196-211 [impl FromStr for Format]. *)
Definition parse_format (s : string) : result format parse_error :=
  if String.eqb s "jpg" then Ok Jpg
  else if String.eqb s "tif" then Ok Tif
  else if String.eqb s "png" then Ok Png
  else if String.eqb s "gif" then Ok Gif
  else if String.eqb s "jp2" then Ok Jp2
  else if String.eqb s "pdf" then Ok Pdf
  else if String.eqb s "webp" then Ok Webp
  else Err (UnrecognisedFormat s).

(** ** Identifier decoding: crate urlencoding 2.1.3, [decode] *)

(** [from_hex_digit]. *)
Definition hex_digit (a : ascii) : option Z :=
  if is_digit a then Some (code a - 48)%Z
  else if ((65 <=? code a) && (code a <=? 70))%Z then Some (code a - 55)%Z
  else if ((97 <=? code a) && (code a <=? 102))%Z then Some (code a - 87)%Z
  else None.

Definition byte (z : Z) : ascii := ascii_of_N (Z.to_N z).

(** [decode_binary]: a percent sign followed by two hex digits becomes a byte;
    a malformed escape is copied ('%' alone when the first digit is bad, '%' and
    the first digit when the second is bad; when fewer than two characters
    remain everything is copied). *)
Fixpoint decode_binary (s : string) : string :=
  match s with
  | EmptyString => EmptyString
  | String a r =>
      if Ascii.eqb a "%" then
        match r with
        | String h1 (String h2 r2 as r1) =>
            match hex_digit h1 with
            | Some d1 =>
                match hex_digit h2 with
                | Some d2 => String (byte (16 * d1 + d2)) (decode_binary r2)
                | None => String a (String h1 (decode_binary r1))
                end
            | None => String a (decode_binary r)
            end
        | _ => s
        end
      else String a (decode_binary r)
  end.

Definition in_range (lo hi : Z) (a : ascii) : bool :=
  ((lo <=? code a) && (code a <=? hi))%Z.

(** [core::str::from_utf8] validity: the well-formed byte sequences of the
    Unicode standard (table 3-7). *)
Fixpoint utf8_valid (s : string) : bool :=
  match s with
  | EmptyString => true
  | String a r =>
      if in_range 0 127 a then utf8_valid r
      else match r with
      | EmptyString => false
      | String b r =>
          if in_range 194 223 a && in_range 128 191 b then utf8_valid r
          else match r with
          | EmptyString => false
          | String c r =>
              if ((in_range 224 224 a && in_range 160 191 b)
                  || (in_range 225 236 a && in_range 128 191 b)
                  || (in_range 237 237 a && in_range 128 159 b)
                  || (in_range 238 239 a && in_range 128 191 b))
                 && in_range 128 191 c
              then utf8_valid r
              else match r with
              | EmptyString => false
              | String d r =>
                  if ((in_range 240 240 a && in_range 144 191 b)
                      || (in_range 241 243 a && in_range 128 191 b)
                      || (in_range 244 244 a && in_range 128 143 b))
                     && in_range 128 191 c && in_range 128 191 d
                  then utf8_valid r
                  else false
              end
          end
      end
  end.

(** [urlencoding::decode]: [None] is [Err(FromUtf8Error)].  (When nothing needs
    decoding the crate returns the input without re-checking it; the input is a
    Rust [str], so it is valid UTF-8 and the result is the same.) *)
Definition url_decode (s : string) : option string :=
  let b := decode_binary s in
  if utf8_valid b then Some b else None.

(** ** src/http.rs *)

Definition opt_next (l : list string) : option (string * list string) :=
  match l with [] => None | x :: r => Some (x, r) end.

(** src/http.rs:60-99, the part of [decode_image_request] after the debug
    assertion; [segments] is what is left in the iterator.  Segments after the
    format are never looked at. *)
Definition decode_segments (segments : list string) : result image_request request_error :=
  match opt_next segments with
  | None => Err (UriMissingElement "identifier")
  | Some (input, segments) =>
  match url_decode input with
  | None => Err (UriNotUtf8 "identifier")
  | Some ident =>
  match opt_next segments with
  | None => Err (UriMissingElement "region")
  | Some (s, segments) =>
  match parse_region s with
  | Err e => Err (RequestParseError e)
  | Ok reg =>
  match opt_next segments with
  | None => Err (UriMissingElement "size")
  | Some (s, segments) =>
  match parse_size s with
  | Err e => Err (RequestParseError e)
  | Ok sz =>
  match opt_next segments with
  | None => Err (UriMissingElement "rotation")
  | Some (s, segments) =>
  match parse_rotation s with
  | Err e => Err (RequestParseError e)
  | Ok rot =>
  match opt_next segments with
  | None => Err (UriMissingElement "quality")
  | Some (s, _) =>
  match split_once "." s with
  | None => Err (UriMissingElement "format")
  | Some (q, f) =>
  match parse_quality q with
  | Err e => Err (RequestParseError e)
  | Ok qual =>
  match parse_format f with
  | Err e => Err (RequestParseError e)
  | Ok fmt => Ok (mkRequest ident reg sz rot qual fmt)
  end end end end end end end end end end end end.

(** src/http.rs:56-100 [decode_image_request].  [debug] says whether
    debug assertions are compiled in: if so, [debug_assert!] takes the first
    segment and panics unless it is empty; if not, the whole macro argument
    (including [segments.next()]) is absent. *)
Definition decode_image_request (debug : bool) (path : string)
    : outcome (result image_request request_error) :=
  let segments := split_on "/" path in
  if debug then
    match segments with
    | EmptyString :: rest => Done (decode_segments rest)
    | _ => Panic
    end
  else Done (decode_segments segments).

(** src/iiif/parse.rs:80-88 [selector_name]; [Panic] for an index above 3. *)
Definition selector_name (index : nat) : outcome string :=
  match index with
  | 0 => Done "x"%string
  | 1 => Done "y"%string
  | 2 => Done "width"%string
  | 3 => Done "height"%string
  | _ => Panic
  end.

Definition with_selector (index : nat) (f : string -> string) : outcome string :=
  match selector_name index with
  | Done n => Done (f n)
  | Panic => Panic
  end.

Local Open Scope string_scope.

(** src/iiif/parse.rs:266-318 [impl Display for ParseError]. *)
Definition display_parse_error (e : parse_error) : outcome string :=
  match e with
  | RegionSelectorUnparsable i n =>
      with_selector n (fun name => "Region " ++ name ++ " '" ++ i ++ "' could not be parsed (expected integer for standard requests, float for pct: requests).")
  | RegionSelectorOutOfBounds i n =>
      with_selector n (fun name => "Region " ++ name ++ " '" ++ i ++ "' out of bounds: width and height must be greater than 0.")
  | RegionPercentageOutOfBounds i n =>
      with_selector n (fun name => "Region " ++ name ++ " percentage '" ++ i ++ "' out of bounds: must be greater than 0.")
  | RegionSelectorCount s => Done ("Region must include exactly 4 selectors x,y,w,h (received '" ++ s ++ "').")
  | SizeMissingComma s => Done ("Size must include a comma to separate dimensions (received '" ++ s ++ "').")
  | SizeMissingDimensions s => Done ("Size must include at least one dimension (received '" ++ s ++ "').")
  | SizeDimensionUnparsable s => Done ("Size dimension '" ++ s ++ "' could not be parsed (expected integer).")
  | SizePercentageUnparsable s => Done ("Size percentage '" ++ s ++ "' could not be parsed (expected integer or float).")
  | SizeDimensionOutOfBounds s => Done ("Size dimension '" ++ s ++ "' out of bounds: must be at least 1.")
  | SizePercentageOutOfBounds s => Done ("Size percentage '" ++ s ++ "' out of bounds: must be greater than 0 if upscaling is requested, or (0.0, 100.0] otherwise.")
  | RotationAngleUnparsable s => Done ("Rotation '" ++ s ++ "' could not be parsed (expected integer or float).")
  | RotationOutOfBounds s => Done ("Rotation must be [0.0, 360.0], but was '" ++ s ++ "'.")
  | UnrecognisedQuality s => Done ("Unrecognised quality '" ++ s ++ "'.")
  | UnrecognisedFormat s => Done ("Unrecognised format '" ++ s ++ "'.")
  end.

(** src/http.rs:116-128 [impl Display for ImageRequestError]. *)
Definition display_request_error (e : request_error) : outcome string :=
  match e with
  | UriMissingElement el => Done ("Request path missing " ++ el ++ ".")
  | RequestParseError e => display_parse_error e
  | UriNotUtf8 el => Done ("Request path " ++ el ++ " was not in UTF-8.")
  end.

(** HTTP methods that matter to the routing. *)
Inductive method : Type := GET | OtherMethod.

Record response : Type := mkResponse { status : Z; body : string }.

(** src/http.rs:143-148 [bad_request]. *)
Definition bad_request (b : string) : response := mkResponse 400 b.

(** src/http.rs:37-54 [image_request].  [resolve ident] is whether
    [DiskImageSource::resolve] opens a file. *)
Definition image_request_handler (debug : bool) (resolve : string -> bool) (path : string)
    : outcome response :=
  match decode_image_request debug path with
  | Panic => Panic
  | Done (Err e) =>
      match display_request_error e with
      | Done t => Done (bad_request t)
      | Panic => Panic
      end
  | Done (Ok req) =>
      if resolve (identifier req) then Done (mkResponse 200 "OK")
      else Done (bad_request "io error")
  end.

(** src/http.rs:139-141 [info_request]: [unimplemented!()]. *)
Definition info_request (path : string) : outcome response := Panic.

(** src/http.rs:23-35 [handle_request]. *)
Definition handle_request (debug : bool) (resolve : string -> bool)
    (m : method) (path : string) : outcome response :=
  match m with
  | GET =>
      if ends_with "info.json" path then info_request path
      else if starts_with "/" path then image_request_handler debug resolve path
      else Done (mkResponse 404 "notfound")
  | OtherMethod => Done (mkResponse 404 "notfound")
  end.

End Parsing.

(** src/iiif.rs:154-164 [Format::mime]. *)
Definition mime (f : format) : string :=
  match f with
  | Jpg => "image/jpeg"
  | Tif => "image/tiff"
  | Png => "image/png"
  | Gif => "image/gif"
  | Jp2 => "image/jp2"
  | Pdf => "application/pdf"
  | Webp => "image/webp"
  end.

(** ** src/resolve.rs:18-21: [self.path.join(ident)] on Unix.
    [Path::join]: an absolute argument replaces the base; otherwise a separator
    is inserted unless the base is empty or already ends with one. *)
Local Open Scope string_scope.
Definition path_join (base ident : string) : string :=
  match strip_prefix "/" ident with
  | Some _ => ident
  | None =>
      if String.eqb base "" || ends_with "/" base then base ++ ident
      else base ++ "/" ++ ident
  end.
