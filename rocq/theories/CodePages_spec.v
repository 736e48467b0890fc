(** * What it means for a code page to be a mapping between bytes and code points *)
From Verif Require Import Base CodePages_model CodePages_tables CodePages_standard.

(** every byte that decodes to a code point is what the code point encodes to *)
Definition decode_then_encode (p : code_page) : Prop :=
  forall b c, b < 256 -> cp_decode_byte p b = Ok c -> cp_encode_code_point p c = Ok b.
(** every code point that encodes to a byte is what the byte decodes to *)
Definition encode_then_decode (p : code_page) : Prop :=
  forall c b, cp_encode_code_point p c = Ok b -> b < 256 /\ cp_decode_byte p b = Ok c.
Definition total (p : code_page) : Prop :=
  (forall b, b < 256 -> cp_decode_byte p b <> Panic) /\ (forall c, cp_encode_code_point p c <> Panic).

Definition all_pages : list code_page :=
  [ascii; iso8859_1; iso8859_2; iso8859_3; iso8859_4; iso8859_5; iso8859_6; iso8859_7; iso8859_8; iso8859_9;
   iso8859_10; iso8859_11; iso8859_13; iso8859_14; iso8859_15; iso8859_16; koi8_r; koi8_u; mac_arabic; mac_celtic;
   mac_central_eur_roman; mac_croatian; mac_cyrillic; mac_dingbats; mac_farsi; mac_gaelic; windows1250; windows1251;
   windows1252; windows1253; windows1254; windows1255; windows1256; windows1257; windows1258; windows874].
Definition exact_pages : list code_page :=
  [iso8859_1; iso8859_3; iso8859_5; iso8859_6; iso8859_7; iso8859_8; iso8859_9;
   iso8859_10; iso8859_11; iso8859_13; iso8859_14; iso8859_15; iso8859_16; koi8_r; koi8_u; mac_celtic;
   mac_central_eur_roman; mac_croatian; mac_cyrillic; mac_dingbats; mac_gaelic; windows1250; windows1251;
   windows1252; windows1253; windows1254; windows1255; windows1256; windows1257; windows1258; windows874].

(** The page decodes as the reference mapping says. *)
Definition decodes_as (p : code_page) (reference : list (option N)) : Prop :=
  (forall b, b < 128 -> cp_decode_byte p b = Ok b) /\
  (forall b, 128 <= b < 256 ->
     exists o, nth_error reference (N.to_nat (b - 128)) = Some o /\
       cp_decode_byte p b = match o with Some c => Ok c | None => Err end).
Definition reference_pages : list (code_page * list (option N)) :=
  [(iso8859_1, std_iso8859_1); (iso8859_2, std_iso8859_2); (iso8859_3, std_iso8859_3); (iso8859_4, std_iso8859_4);
   (iso8859_5, std_iso8859_5); (iso8859_6, std_iso8859_6); (iso8859_7, std_iso8859_7); (iso8859_8, std_iso8859_8);
   (iso8859_9, std_iso8859_9); (iso8859_10, std_iso8859_10); (iso8859_11, std_iso8859_11); (iso8859_13, std_iso8859_13);
   (iso8859_14, std_iso8859_14); (iso8859_15, std_iso8859_15); (iso8859_16, std_iso8859_16); (koi8_r, std_koi8_r);
   (koi8_u, std_koi8_u); (mac_arabic, std_mac_arabic); (mac_central_eur_roman, std_mac_central_eur_roman);
   (mac_croatian, std_mac_croatian); (mac_cyrillic, std_mac_cyrillic); (mac_farsi, std_mac_farsi);
   (windows1250, std_windows1250); (windows1251, std_windows1251); (windows1252, std_windows1252);
   (windows1253, std_windows1253); (windows1254, std_windows1254); (windows1255, std_windows1255);
   (windows1256, std_windows1256); (windows1257, std_windows1257); (windows1258, std_windows1258);
   (windows874, std_windows874)].
