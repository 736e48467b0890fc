(** * C65: the header values of an EWF image are the ones that were written *)
From Coq Require Import Lia String.
From Verif Require Import Base BaseLemmas Deflate_model Deflate_spec Deflate_proofs Deflate_streams P_C11 VfsContext_model EwfHeader_model EwfHeader_spec.
Open Scope N_scope.
Open Scope list_scope.
Ltac Zify.zify_post_hook ::= idtac.

(** ** Lines and words *)
Definition on_line (l : list N) : Prop := Forall (fun c => c <> 0 /\ c <> 10 /\ c <> 13) l.
Lemma line_ok eol rest : line_end eol -> forall l last line, on_line l -> last <> 13 ->
  line_from (l ++ eol ++ rest) last line = (Some (rev line ++ l), rest).
Proof.
  intros He. induction l as [|c l IH]; intros last line Hl H.
  - rewrite app_nil_r. destruct He as [-> | ->]; cbn [app line_from N.eqb Pos.eqb].
    + destruct (N.eqb_spec last 13); [contradiction|reflexivity].
    + reflexivity.
  - inversion Hl as [|? ? (H0 & H10 & H13) Hr]; subst. cbn [app line_from].
    destruct (N.eqb_spec c 0); [contradiction|]. destruct (N.eqb_spec c 10); [contradiction|]. rewrite IH by assumption. cbn [rev]. rewrite <- app_assoc. reflexivity.
Qed.
Lemma next_line_ok l eol rest : line_end eol -> on_line l -> next_line (l ++ eol ++ rest) = (Some l, rest).
Proof. intros He Hl. unfold next_line. rewrite line_ok; auto. discriminate. Qed.
Lemma plain_on_line l : plain l -> on_line l.
Proof. apply Forall_impl. intros c. intuition. Qed.
Lemma tabbed_on_line words : Forall plain words -> on_line (tabbed words).
Proof.
  induction words as [|w words IH]; intros H; [constructor|]. inversion H as [|? ? H1 H2]; subst. cbn [tabbed]. destruct words; [apply plain_on_line; exact H1|].
  apply Forall_app. split; [apply plain_on_line; exact H1|]. apply Forall_app. split; [|apply IH; exact H2]. constructor; [|constructor]. repeat split; discriminate.
Qed.
Lemma split_word w : plain w -> forall rest, split_tabs (w ++ 9 :: rest) = w :: split_tabs rest.
Proof.
  induction 1 as [|c w (_ & Hc & _) _ IH]; intros rest; [reflexivity|]. cbn [app split_tabs]. destruct (N.eqb_spec c 9); [contradiction|]. rewrite IH. reflexivity.
Qed.
Lemma split_last w : plain w -> split_tabs w = [w].
Proof. induction 1 as [|c w (_ & Hc & _) _ IH]; [reflexivity|]. cbn [split_tabs]. destruct (N.eqb_spec c 9); [contradiction|]. rewrite IH. reflexivity. Qed.
Lemma split_tabbed words : words <> [] -> Forall plain words -> split_tabs (tabbed words) = words.
Proof.
  induction words as [|w words IH]; intros H F; [congruence|]. inversion F as [|? ? F1 F2]; subst. cbn [tabbed]. destruct words as [|w2 words]; [apply split_last; exact F1|].
  cbn [app]. rewrite split_word by exact F1. rewrite IH; [reflexivity|discriminate|exact F2].
Qed.
Lemma until_zero_plain w : plain w -> until_zero w = w.
Proof. induction 1 as [|c w (Hc & _) _ IH]; [reflexivity|]. cbn [until_zero]. destruct (N.eqb_spec c 0); [contradiction|]. rewrite IH. reflexivity. Qed.
Lemma read_lines_ok codes convert category eol pairs rest values : category_line category -> line_end eol -> plain_pairs pairs ->
  read_lines codes convert (header_text category eol pairs rest) values = insert_values codes convert (map fst pairs) (map snd pairs) values.
Proof.
  intros Hc He [Hn Hp]. unfold read_lines, header_text.
  assert (P1 : Forall plain (map fst pairs)) by (apply Forall_map; eapply Forall_impl; [|exact Hp]; intros p; apply proj1).
  assert (P2 : Forall plain (map snd pairs)) by (apply Forall_map; eapply Forall_impl; [|exact Hp]; intros p; apply proj2).
  rewrite next_line_ok; [|exact He|destruct Hc as [-> | ->]; repeat constructor; discriminate].
  assert (K : check (if list_eq_dec N.eq_dec category (chars "1") then true else if list_eq_dec N.eq_dec category (chars "3") then true else false) = Ok tt) by (destruct Hc as [-> | ->]; reflexivity).
  rewrite K. cbn [bind]. rewrite next_line_ok; [|exact He|repeat constructor; discriminate].
  destruct (list_eq_dec N.eq_dec (chars "main") (chars "main")); [|contradiction]. cbn [check bind].
  rewrite next_line_ok; [|exact He|apply tabbed_on_line; exact P1]. rewrite next_line_ok; [|exact He|apply tabbed_on_line; exact P2]. cbv zeta.
  rewrite !split_tabbed; auto; try (destruct pairs; [congruence|discriminate]). unfold len. rewrite !map_length, N.eqb_refl. reflexivity.
Qed.

(** ** The values *)
Definition has_type codes t (p : list N * list N) : bool := if value_type_eq (type_of_code codes (fst p)) t then true else false.
Lemma get_cons t u v values : get t ((u, v) :: values) = if value_type_eq t u then Some v else get t values.
Proof. unfold get. cbn [find fst]. destruct (value_type_eq t u); reflexivity. Qed.
Lemma insert_ok codes convert (shows_as : value_type -> list N -> header_value) pairs :
  Forall (fun p => type_of_code codes (fst p) <> NotSet -> convert (type_of_code codes (fst p)) (snd p) = Ok (Some (shows_as (type_of_code codes (fst p)) (snd p)))) pairs ->
  forall values, exists result, insert_values codes convert (map fst pairs) (map snd pairs) values = Ok result /\
  forall t, t <> NotSet -> get t result = match get t values with Some v => Some v | None => match find (has_type codes t) pairs with Some p => Some (shows_as t (snd p)) | None => None end end.
Proof.
  induction 1 as [|[code word] pairs H _ IH]; intros values.
  - exists values. split; [reflexivity|]. intros t _. cbn [find]. destruct (get t values); reflexivity.
  - cbn [map fst snd insert_values] in *. unfold has_type. cbn [find fst]. fold (has_type codes). set (u := type_of_code codes code) in *.
    destruct (value_type_eq u NotSet) as [Hu|Hu]; cbn [orb].
    + destruct (IH values) as (r & E1 & E2). exists r. split; [exact E1|]. intros t Ht. rewrite E2 by exact Ht. destruct (get t values); [reflexivity|].
      destruct (value_type_eq u t); [congruence|]. reflexivity.
    + destruct (get u values) as [old|] eqn:G.
      * destruct (IH values) as (r & E1 & E2). exists r. split; [exact E1|]. intros t Ht. rewrite E2 by exact Ht. destruct (get t values) eqn:Gt; [reflexivity|].
        destruct (value_type_eq u t); [congruence|]. reflexivity.
      * rewrite H by exact Hu. cbn [bind]. destruct (IH ((u, shows_as u word) :: values)) as (r & E1 & E2). exists r. split; [exact E1|]. intros t Ht. rewrite E2 by exact Ht.
        rewrite get_cons. destruct (value_type_eq t u) as [->|Hne].
        -- rewrite G. destruct (value_type_eq u u); [reflexivity|contradiction].
        -- destruct (get t values); [reflexivity|]. destruct (value_type_eq u t); [congruence|]. reflexivity.
Qed.
Lemma header_code t code : t <> NotSet -> type_of_code header_codes code = t <-> code = chars (code_of t).
Proof.
  intros Ht. split.
  - unfold type_of_code, header_codes. cbn [find fst]. repeat (destruct (list_eq_dec N.eq_dec code _) as [->|]; [intros <-; reflexivity|]). intros <-. contradiction.
  - intros ->. destruct t; first [reflexivity|contradiction].
Qed.
Definition code_of2 (t : value_type) : string := match t with Notes => "w"%string | _ => code_of t end.
Lemma header2_code t code : t <> NotSet -> type_of_code header2_codes code = t <-> code = chars (code_of2 t).
Proof.
  intros Ht. split.
  - unfold type_of_code, header2_codes. cbn [find fst]. repeat (destruct (list_eq_dec N.eq_dec code _) as [->|]; [intros <-; reflexivity|]). intros <-. contradiction.
  - intros ->. destruct t; first [reflexivity|contradiction].
Qed.
Lemma find_written codes t code pairs value : (forall c, type_of_code codes c = t <-> c = code) -> written pairs code value ->
  match find (has_type codes t) pairs with Some p => Some (snd p) | None => None end = value.
Proof.
  intros C. destruct value as [word|]; cbn [written].
  - intros (before & after & -> & H). induction before as [|[c w] before IH]; cbn [app find].
    + unfold has_type at 1. cbn [fst]. destruct (value_type_eq (type_of_code codes code) t) as [_|N]; [reflexivity|]. exfalso. apply N, C. reflexivity.
    + unfold has_type at 1. cbn [fst]. destruct (value_type_eq (type_of_code codes c) t) as [E|_]; [|apply IH; intros Hi; apply H; right; exact Hi].
      exfalso. apply H. left. apply C. exact E.
  - induction pairs as [|[c w] pairs IH]; intros H; [reflexivity|]. cbn [find]. unfold has_type at 1. cbn [fst]. destruct (value_type_eq (type_of_code codes c) t) as [E|_].
    + exfalso. apply H. left. apply C. exact E.
    + apply IH. intros Hi. apply H. right. exact Hi.
Qed.

(** ** Decompression *)
Lemma wf_zeros n : wf_bytes (repeat 0 n).
Proof. apply Forall_forall. intros x Hx. apply repeat_spec in Hx. subst x. reflexivity. Qed.
Lemma skip_zeros n m : exists k, skipn n (repeat 0 m) = repeat 0 k.
Proof. revert m. induction n as [|n IH]; intros [|m]; cbn [skipn repeat]; [exists 0%nat|exists (S m)|exists 0%nat|apply IH]; reflexivity. Qed.
Lemma decompress_header header body trailer blocks : zlib_stream header body trailer [] blocks ->
  len (blocks_meaning blocks) <= len (header ++ body ++ trailer) * 4 ->
  exists k n, zlib_decompress (header ++ body ++ trailer) (repeat 0 (N.to_nat (len (header ++ body ++ trailer) * 4))) = Ok (blocks_meaning blocks ++ repeat 0 k, n).
Proof.
  intros Z L. rewrite (C11_checksum_ignored_at_the_end _ _ _ _ _ Z (wf_zeros _)).
  - destruct (skip_zeros (length (blocks_meaning blocks)) (N.to_nat (len (header ++ body ++ trailer) * 4))) as [k ->]. eauto.
  - unfold len at 2. rewrite repeat_length, N2Nat.id. exact L.
Qed.
Lemma header_text_app category eol pairs rest more : header_text category eol pairs rest ++ more = header_text category eol pairs (rest ++ more).
Proof. unfold header_text. rewrite <- !app_assoc. reflexivity. Qed.

(** For every compressed header section with a text of codes and values: a value is the first one
    written for its code, unless there was one before. *)
Theorem C65_header :
  forall header body trailer blocks category eol pairs rest before,
  zlib_stream header body trailer [] blocks -> blocks_meaning blocks = header_text category eol pairs rest ->
  len (blocks_meaning blocks) <= len (header ++ body ++ trailer) * 4 ->
  category_line category -> line_end eol -> plain_pairs pairs ->
  exists result, read_header (header ++ body ++ trailer) before = Ok result /\
  forall t value, t <> NotSet -> written pairs (chars (code_of t)) value ->
  get t result = match get t before with Some v => Some v | None => match value with Some word => Some (ByteValue word) | None => None end end.
Proof.
  intros header body trailer blocks category eol pairs rest before Z M L Hc He Hp. unfold read_header.
  destruct (decompress_header _ _ _ _ Z L) as (k & n & ->). cbn [bind]. rewrite M, header_text_app, read_lines_ok by assumption.
  destruct (insert_ok header_codes convert_bytes (fun _ w => ByteValue w) pairs) with (values := before) as (result & E1 & E2).
  { destruct Hp as [_ Hp]. eapply Forall_impl; [|exact Hp]. intros p [_ P2] _. unfold convert_bytes. rewrite until_zero_plain by exact P2. reflexivity. }
  exists result. split; [exact E1|]. intros t value Ht W. rewrite E2 by exact Ht. destruct (get t before); [reflexivity|].
  rewrite <- (find_written header_codes t _ pairs value (fun c => header_code t c Ht) W). destruct (find _ pairs); reflexivity.
Qed.
Print Assumptions C65_header.

(** ** UTF-16 and dates *)
Lemma units_ok big units : forall rest, values_16bit big (utf16_bytes big units ++ rest) = units ++ values_16bit big rest.
Proof.
  induction units as [|u units IH]; intros rest; [reflexivity|]. pose proof (N.div_mod u 256 ltac:(discriminate)) as D.
  unfold utf16_bytes. cbn [flat_map]. fold (utf16_bytes big units). destruct big; cbn [app values_16bit]; rewrite IH; f_equal; lia.
Qed.
Lemma fold_ge w : forall a, a <= fold_left (fun a c => a * 10 + (c - 48)) w a.
Proof. induction w as [|c w IH]; intros a; cbn [fold_left]; [lia|]. pose proof (IH (a * 10 + (c - 48))). lia. Qed.
Lemma parse_ok w : Forall (fun c => 48 <= c <= 57) w -> forall a, a < 2147483648 ->
  parse_date_from w a = if fold_left (fun a c => a * 10 + (c - 48)) w a <? 2147483648 then Ok (Some (fold_left (fun a c => a * 10 + (c - 48)) w a)) else Panic.
Proof.
  induction 1 as [|c w Hc _ IH]; intros a Ha; cbn [fold_left parse_date_from].
  - destruct (N.ltb_spec a 2147483648); [reflexivity|lia].
  - pose proof (fold_ge w (a * 10 + (c - 48))) as G. unfold mul_chk, add_chk. destruct (N.ltb_spec (a * 10) 2147483648); cbn [bind].
    + destruct (N.ltb_spec c 48); [lia|]. destruct (N.ltb_spec 57 c); [lia|]. cbn [orb].
      destruct (N.ltb_spec (a * 10 + (c - 48)) 2147483648); cbn [bind]; [apply IH; assumption|].
      destruct (N.ltb_spec (fold_left (fun a c => a * 10 + (c - 48)) w (a * 10 + (c - 48))) 2147483648); [lia|reflexivity].
    + destruct (N.ltb_spec (fold_left (fun a c => a * 10 + (c - 48)) w (a * 10 + (c - 48))) 2147483648); [lia|reflexivity].
Qed.
Lemma parse_date_ok w n : date_text w n -> parse_date_value w = if n <? 2147483648 then Ok (Some n) else Panic.
Proof. intros [D <-]. apply (parse_ok w D 0). reflexivity. Qed.
Definition shows_utf16 (t : value_type) (w : list N) : header_value :=
  match t with AcquisitionDate | SystemDate => PosixTime (fold_left (fun a c => a * 10 + (c - 48)) w 0) | _ => Utf16Value w end.
Lemma shown_shows t w v : shown t w v -> shows_utf16 t w = v.
Proof.
  intros [[D (n & [_ E] & ->)]|[D ->]].
  - destruct D as [-> | ->]; cbn [shows_utf16]; rewrite E; reflexivity.
  - destruct t; try reflexivity; exfalso; apply D; [left|right]; reflexivity.
Qed.
Lemma header2_lines header body trailer blocks big mark units before : zlib_stream header body trailer [] blocks ->
  blocks_meaning blocks = mark ++ utf16_bytes big units -> len (blocks_meaning blocks) <= len (header ++ body ++ trailer) * 4 ->
  byte_order_mark big mark -> (exists more, units = 49 :: more \/ units = 51 :: more) ->
  exists more, read_header2 (header ++ body ++ trailer) before = read_lines header2_codes convert_utf16 (units ++ more) before.
Proof.
  intros Z M L B (more & U). unfold read_header2. destruct (decompress_header _ _ _ _ Z L) as (k & n & ->). cbn [bind]. rewrite M.
  exists (values_16bit big (repeat 0 k)). rewrite <- units_ok. destruct B as [-> |[-> ->]].
  - destruct big; reflexivity.
  - destruct U as [-> | ->]; reflexivity.
Qed.
Lemma text_starts category eol pairs rest : category_line category -> exists more, header_text category eol pairs rest = 49 :: more \/ header_text category eol pairs rest = 51 :: more.
Proof. intros [-> | ->]; unfold header_text; eexists; [left|right]; reflexivity. Qed.
Lemma header2_result header body trailer blocks big mark category eol pairs rest before :
  zlib_stream header body trailer [] blocks -> blocks_meaning blocks = mark ++ utf16_bytes big (header_text category eol pairs rest) ->
  len (blocks_meaning blocks) <= len (header ++ body ++ trailer) * 4 ->
  byte_order_mark big mark -> category_line category -> line_end eol -> plain_pairs pairs -> dates_fit pairs ->
  exists result, read_header2 (header ++ body ++ trailer) before = Ok result /\
  forall t value, t <> NotSet -> written pairs (chars (code_of2 t)) value ->
  get t result = match get t before with Some v => Some v | None => match value with Some word => Some (shows_utf16 t word) | None => None end end.
Proof.
  intros Z M L B Hc He Hp Hd. destruct (header2_lines _ _ _ _ _ _ _ before Z M L B (text_starts _ _ _ _ Hc)) as (more & ->). rewrite header_text_app, read_lines_ok by assumption.
  destruct (insert_ok header2_codes convert_utf16 shows_utf16 pairs) with (values := before) as (result & E1 & E2).
  { eapply Forall_impl; [|exact Hd]. intros [c w] D Ht. cbn [fst snd] in *. set (t := type_of_code header2_codes c) in *.
    assert (C : c = chars (code_of2 t)) by (apply (header2_code t c Ht); reflexivity).
    destruct t eqn:Et; try reflexivity; destruct D as (n & D1 & D2); try (subst c; auto); cbn [convert_utf16]; rewrite (parse_date_ok w n D1);
      (destruct (N.ltb_spec n 2147483648); [|lia]); cbn [bind shows_utf16]; destruct D1 as [_ ->]; reflexivity. }
  exists result. split; [exact E1|]. intros t value Ht W. rewrite E2 by exact Ht. destruct (get t before); [reflexivity|].
  rewrite <- (find_written header2_codes t _ pairs value (fun c => header2_code t c Ht) W). destruct (find _ pairs); reflexivity.
Qed.

(** The same of header2 sections, in both byte orders; dates are times. Missing: notes, and dates
    from 2038 on. *)
Theorem C65_header2_partial :
  forall header body trailer blocks big mark category eol pairs rest before,
  zlib_stream header body trailer [] blocks -> blocks_meaning blocks = mark ++ utf16_bytes big (header_text category eol pairs rest) ->
  len (blocks_meaning blocks) <= len (header ++ body ++ trailer) * 4 ->
  byte_order_mark big mark -> category_line category -> line_end eol -> plain_pairs pairs -> dates_fit pairs ->
  exists result, read_header2 (header ++ body ++ trailer) before = Ok result /\
  forall t value, t <> NotSet -> t <> Notes -> written pairs (chars (code_of t)) value ->
  match get t before, value with
  | Some v, _ => get t result = Some v
  | None, Some word => forall v, shown t word v -> get t result = Some v
  | None, None => get t result = None
  end.
Proof.
  intros header body trailer blocks big mark category eol pairs rest before Z M L B Hc He Hp Hd.
  destruct (header2_result _ _ _ _ _ _ _ _ _ _ before Z M L B Hc He Hp Hd) as (result & E1 & E2). exists result. split; [exact E1|]. intros t value Ht Hn W.
  assert (C : code_of2 t = code_of t) by (destruct t; try reflexivity; contradiction). rewrite <- C in W. rewrite (E2 t value Ht W).
  destruct (get t before); [reflexivity|]. destruct value; [|reflexivity]. intros v S. rewrite (shown_shows t _ v S). reflexivity.
Qed.
Print Assumptions C65_header2_partial.

(** The notes of every such section are lost. *)
Theorem C65_header2_notes_refuted :
  forall header body trailer blocks big mark category eol pairs rest before,
  zlib_stream header body trailer [] blocks -> blocks_meaning blocks = mark ++ utf16_bytes big (header_text category eol pairs rest) ->
  len (blocks_meaning blocks) <= len (header ++ body ++ trailer) * 4 ->
  byte_order_mark big mark -> category_line category -> line_end eol -> plain_pairs pairs -> dates_fit pairs ->
  forall notes, written pairs (chars (code_of Notes)) (Some notes) -> ~ In (chars "w") (map fst pairs) -> get Notes before = None ->
  exists result, read_header2 (header ++ body ++ trailer) before = Ok result /\ get Notes result = None.
Proof.
  intros header body trailer blocks big mark category eol pairs rest before Z M L B Hc He Hp Hd notes W H G.
  destruct (header2_result _ _ _ _ _ _ _ _ _ _ before Z M L B Hc He Hp Hd) as (result & E1 & E2). exists result. split; [exact E1|].
  rewrite (E2 Notes None); [rewrite G; reflexivity|discriminate|exact H].
Qed.
Print Assumptions C65_header2_notes_refuted.

(** A date from 2038 on panics. *)
Theorem C65_header2_dates_refuted :
  forall header body trailer blocks big mark category eol date n pairs rest before,
  zlib_stream header body trailer [] blocks -> blocks_meaning blocks = mark ++ utf16_bytes big (header_text category eol ((chars "m", date) :: pairs) rest) ->
  len (blocks_meaning blocks) <= len (header ++ body ++ trailer) * 4 ->
  byte_order_mark big mark -> category_line category -> line_end eol -> plain_pairs ((chars "m", date) :: pairs) ->
  date_text date n -> 2147483648 <= n -> get AcquisitionDate before = None ->
  read_header2 (header ++ body ++ trailer) before = Panic.
Proof.
  intros header body trailer blocks big mark category eol date n pairs rest before Z M L B Hc He Hp D Hn G.
  destruct (header2_lines _ _ _ _ _ _ _ before Z M L B (text_starts _ _ _ _ Hc)) as (more & ->). rewrite header_text_app, read_lines_ok by assumption.
  cbn [map fst snd insert_values]. change (type_of_code header2_codes (chars "m")) with AcquisitionDate. rewrite G.
  cbn [orb convert_utf16]. rewrite (parse_date_ok date n D). destruct (N.ltb_spec n 2147483648); [lia|]. reflexivity.
Qed.
Print Assumptions C65_header2_dates_refuted.

(** Header sections do not panic, whatever the bytes. *)
Theorem C65_header_no_panic :
  forall data before, wf_bytes data -> read_header data before <> Panic.
Proof.
  intros data before H. unfold read_header. pose proof (C11_no_panic data _ H (wf_zeros (N.to_nat (len data * 4)))) as P.
  destruct (zlib_decompress data _) as [[d n]| |]; try congruence; cbn [bind]; try discriminate. clear.
  assert (I : forall types words values, insert_values header_codes convert_bytes types words values <> Panic).
  { induction types as [|c types IH]; intros [|w words] values; cbn [insert_values]; try discriminate. cbv zeta. destruct (_ || _); [apply IH|]. cbn [convert_bytes bind]. apply IH. }
  unfold read_lines. destruct (next_line d) as [[l1|] d1]; [|discriminate]. destruct (if list_eq_dec _ l1 _ then true else _); cbn [check bind]; [|discriminate].
  destruct (next_line d1) as [[l2|] d2]; [|discriminate]. destruct (if list_eq_dec _ l2 _ then true else _); cbn [check bind]; [|discriminate].
  destruct (next_line d2) as [[l3|] d3]; [|discriminate]. destruct (next_line d3) as [[l4|] d4]; [|discriminate]. cbv zeta. destruct (_ =? _); cbn [check bind]; [apply I|discriminate].
Qed.
Print Assumptions C65_header_no_panic.

(** ** When header2 sections panic *)
Lemma zlib_length data buf d n : wf_bytes data -> zlib_decompress data buf = Ok (d, n) -> length d = length buf /\ 2 <= len data.
Proof.
  intros W E. unfold zlib_decompress in E. apply bind_Ok_inv in E as (h & Eh & E).
  assert (Hh : h <= len data /\ 2 <= len data).
  { unfold zlib_header in Eh. destruct (N.leb_spec 2 (len data)); cbn [check bind] in Eh; [|discriminate].
    apply bind_Ok_inv in Eh as (c & _ & Eh). apply bind_Ok_inv in Eh as (? & _ & Eh). cbv zeta in Eh. apply bind_Ok_inv in Eh as (? & _ & Eh). apply bind_Ok_inv in Eh as (f & _ & Eh).
    destruct (negb _); [|injection Eh as <-; lia]. destruct (N.leb_spec 6 (len data)); cbn [check bind] in Eh; [injection Eh as <-; lia|discriminate]. }
  split; [|apply Hh]. apply bind_Ok_inv in E as ([[b sz] s] & Eb & E).
  destruct (decompress_bitstream_safe data h (length buf) W (proj1 Hh)) as [E1 | (w & s' & p & L & S & _ & Ww & E1)]; rewrite E1 in Eb by reflexivity; [discriminate|].
  injection Eb as <- _ _. apply bind_Ok_inv in E as (? & _ & E). apply bind_Ok_inv in E as (? & _ & E). apply bind_Ok_inv in E as (? & _ & E). injection E as <- _.
  rewrite app_length, skipn_length. lia.
Qed.
Lemma line_part data : forall last acc r rest, line_from data last acc = (Some r, rest) -> Forall (fun c => c <> 10) acc ->
  (exists b, rev acc ++ data = r ++ b) /\ (exists a, data = a ++ rest) /\ Forall (fun c => c <> 10) r.
Proof.
  induction data as [|c data IH]; intros last acc r rest E H; cbn [line_from] in E.
  - injection E as <- <-. split; [exists []; reflexivity|]. split; [exists []; reflexivity|]. apply Forall_rev. exact H.
  - destruct (c =? 0); [discriminate|]. destruct (N.eqb_spec c 10) as [->|Hc].
    + injection E as <- <-. split; [|split; [exists [10]; reflexivity|]].
      * destruct (last =? 13); [|eexists; reflexivity]. destruct acc as [|x acc]; cbn [tl rev]; [eexists; reflexivity|]. rewrite <- app_assoc. eexists. reflexivity.
      * apply Forall_rev. destruct (last =? 13); [|exact H]. destruct H; [constructor|assumption].
    + destruct (IH c (c :: acc) r rest E) as ((b & E1) & (a & E2) & E3); [constructor; assumption|]. cbn [rev] in E1. rewrite <- app_assoc in E1.
      split; [exists b; exact E1|]. split; [exists (c :: a); rewrite E2; reflexivity|exact E3].
Qed.
Lemma next_line_part data r rest : next_line data = (Some r, rest) ->
  (exists b, data = r ++ b) /\ (exists a, data = a ++ rest) /\ Forall (fun c => c <> 10) r.
Proof. intros E. exact (line_part data 0 [] r rest E (Forall_nil _)). Qed.
Lemma word_part line : forall w, In w (split_tabs line) -> (exists a b, line = a ++ w ++ b) /\ Forall (fun c => c <> 9) w.
Proof.
  assert (K : forall w ws, split_tabs line = w :: ws -> (exists b, line = w ++ b) /\ Forall (fun c => c <> 9) w /\ forall v, In v ws -> (exists a b, line = a ++ v ++ b) /\ Forall (fun c => c <> 9) v).
  { induction line as [|c line IH]; intros w ws E; cbn [split_tabs] in E.
    - injection E as <- <-. split; [exists []; reflexivity|]. split; [constructor|intros v []].
    - destruct (split_tabs line) as [|w0 ws0] eqn:S; [destruct line as [|x line]; cbn [split_tabs] in S; [discriminate|destruct (x =? 9); [discriminate|destruct (split_tabs line); discriminate]]|].
      destruct (IH w0 ws0 eq_refl) as ((b & E1) & E2 & E3). destruct (N.eqb_spec c 9) as [->|Hc]; injection E as <- <-.
      + split; [exists (9 :: line); reflexivity|]. split; [constructor|]. intros v [<-|Hv].
        * split; [exists [9], b; rewrite E1; reflexivity|exact E2].
        * destruct (E3 v Hv) as ((x & y & E4) & E5). split; [exists (9 :: x), y; rewrite E4; reflexivity|exact E5].
      + split; [exists b; rewrite E1; reflexivity|]. split; [constructor; assumption|]. intros v Hv.
        destruct (E3 v Hv) as ((x & y & E4) & E5). split; [exists (c :: x), y; rewrite E4; reflexivity|exact E5]. }
  intros w Hw. destruct (split_tabs line) as [|w0 ws] eqn:S; [contradiction|]. destruct (K w0 ws eq_refl) as ((b & E1) & E2 & E3).
  destruct Hw as [<-|Hw]; [split; [exists [], b; exact E1|exact E2]|apply E3; exact Hw].
Qed.
Lemma parse_panic w : forall a, parse_date_from w a = Panic ->
  exists p c r, w = p ++ c :: r /\ Forall (fun c => 48 <= c <= 57) p /\ 2147483648 <= fold_left (fun a c => a * 10 + (c - 48)) p a * 10 + (c - 48).
Proof.
  induction w as [|c w IH]; intros a E; cbn [parse_date_from] in E; [discriminate|]. unfold mul_chk, add_chk in E.
  destruct (N.ltb_spec (a * 10) 2147483648); cbn [bind] in E.
  - destruct (N.ltb_spec c 48); cbn [orb] in E; [discriminate|]. destruct (N.ltb_spec 57 c); [discriminate|].
    destruct (N.ltb_spec (a * 10 + (c - 48)) 2147483648); cbn [bind] in E.
    + destruct (IH _ E) as (p & d & r & -> & P & Q). exists (c :: p), d, r. split; [reflexivity|]. split; [constructor; [split; assumption|exact P]|exact Q].
    + exists [], c, w. split; [reflexivity|]. split; [constructor|]. cbn [fold_left]. assumption.
  - exists [], c, w. split; [reflexivity|]. split; [constructor|]. cbn [fold_left]. lia.
Qed.
Lemma insert_panic codes types : forall words values, insert_values codes convert_utf16 types words values = Panic -> exists w, In w words /\ parse_date_value w = Panic.
Proof.
  induction types as [|c types IH]; intros [|w words] values E; cbn [insert_values] in E; try discriminate. cbv zeta in E.
  destruct (_ || _); [destruct (IH _ _ E) as (v & V1 & V2); exists v; split; [right; exact V1|exact V2]|].
  destruct (convert_utf16 (type_of_code codes c) w) as [o| |] eqn:K; cbn [bind] in E; try discriminate.
  - destruct (IH _ _ E) as (v & V1 & V2). exists v. split; [right; exact V1|exact V2].
  - exists w. split; [left; reflexivity|]. unfold convert_utf16 in K. destruct (type_of_code codes c); try discriminate; destruct (parse_date_value w); try discriminate; reflexivity.
Qed.

(** Whatever the bytes, header2 sections panic only if the text has digits, within one word, whose
    number with the character after them is 2^31 or more. *)
Theorem C65_header2_panics :
  forall data before, wf_bytes data -> read_header2 data before = Panic ->
  exists text n big offset front digits c back,
  zlib_decompress data (repeat 0 (N.to_nat (len data * 4))) = Ok (text, n) /\ (offset = 0%nat \/ offset = 2%nat) /\
  values_16bit big (skipn offset text) = front ++ digits ++ c :: back /\ c <> 9 /\ c <> 10 /\
  exists k, date_text digits k /\ 2147483648 <= k * 10 + (c - 48).
Proof.
  intros data before W E. unfold read_header2 in E. pose proof (C11_no_panic data _ W (wf_zeros (N.to_nat (len data * 4)))) as P.
  destruct (zlib_decompress data _) as [[d n]| |] eqn:Z; try congruence; cbn [bind] in E; [|discriminate]. destruct (zlib_length _ _ _ _ W Z) as [L1 L2]. rewrite repeat_length in L1.
  assert (L : 8 <= len d) by (unfold len at 1; rewrite L1, N2Nat.id; lia). rewrite (idx_ok d 0 0), (idx_ok d 1 0) in E by lia. cbn [bind] in E. cbv zeta in E.
  set (big := (_ && _)%bool) in E. set (offset := if (big || _)%bool then _ else _) in E. exists d, n, big, offset. set (u := values_16bit big (skipn offset d)) in *. unfold read_lines in E.
  destruct (next_line u) as [[l1|] d1] eqn:E1; [|discriminate]. destruct (if list_eq_dec _ l1 _ then true else _); cbn [check bind] in E; [|discriminate].
  destruct (next_line d1) as [[l2|] d2] eqn:E2; [|discriminate]. destruct (if list_eq_dec _ l2 _ then true else _); cbn [check bind] in E; [|discriminate].
  destruct (next_line d2) as [[l3|] d3] eqn:E3; [|discriminate]. destruct (next_line d3) as [[l4|] d4] eqn:E4; [|discriminate]. cbv zeta in E.
  destruct (len (split_tabs l4) =? len (split_tabs l3)); cbn [check bind] in E; [|discriminate]. destruct (insert_panic _ _ _ _ E) as (w & I1 & I2). destruct (parse_panic w 0 I2) as (p & c & r & -> & Q1 & Q2).
  destruct (next_line_part _ _ _ E1) as (_ & (a1 & A1) & _), (next_line_part _ _ _ E2) as (_ & (a2 & A2) & _), (next_line_part _ _ _ E3) as (_ & (a3 & A3) & _).
  destruct (next_line_part _ _ _ E4) as ((b4 & A4) & _ & F4). destruct (word_part _ _ I1) as ((x & y & A5) & F5).
  exists (a1 ++ a2 ++ a3 ++ x), p, c, (r ++ y ++ b4). split; [reflexivity|]. split; [subst offset; match goal with |- (if ?b then _ else _) = _ \/ _ => destruct b; auto end|]. split; [rewrite A1, A2, A3, A4, A5; rewrite <- !app_assoc; reflexivity|].
  apply Forall_app in F5 as [_ F5]. inversion F5; subst. rewrite !Forall_app in F4. destruct F4 as (_ & (_ & F4) & _). inversion F4; subst.
  split; [assumption|]. split; [assumption|]. eexists. split; [split; [exact Q1|reflexivity]|exact Q2].
Qed.
Print Assumptions C65_header2_panics.

(** Sections that meet the hypotheses: a stored block with a header of two values, and one with a
    big endian header2 of notes and a date *)
Definition example_pairs : list (list N * list N) := [(chars "t", chars "Some notes"); (chars "m", chars "1758131161")].
Definition example_text : list N := header_text (chars "1") [13; 10] example_pairs [0].
Definition example_text2 : list N := [254; 255] ++ utf16_bytes true (header_text (chars "3") [10] example_pairs [0]).
Definition stored (text : list N) : list N := [1; len text; 0; 255 - len text; 255] ++ text.
Lemma stored_stream text : wf_bytesb ([120; 156] ++ stored text ++ [0; 0; 0; 0]) = true ->
  bits_of (stored text) = blocks_bits [Stored (repeat false 5) text] -> len text < 256 ->
  zlib_stream [120; 156] (stored text) [0; 0; 0; 0] [] [Stored (repeat false 5) text].
Proof.
  intros W E L. split; [|split; [|split; [|split; [|split]]]].
  - exists 7, 156. repeat split. discriminate.
  - apply wf_bytesb_iff. exact W.
  - reflexivity.
  - exists []. split; [cbn; lia|]. rewrite app_nil_r. exact E.
  - cbn [blocks_valid block_valid]. assert (Wt : wf_bytes text).
    { apply wf_bytesb_iff in W. rewrite !wf_bytes_app in W. unfold stored in W. rewrite wf_bytes_app in W. apply W. }
    split; [lia|]. split; [exact Wt|]. split; [cbn; lia|reflexivity].
  - repeat constructor.
Qed.
Example C65_case :
  zlib_stream [120; 156] (stored example_text) [0; 0; 0; 0] [] [Stored (repeat false 5) example_text] /\
  zlib_stream [120; 156] (stored example_text2) [0; 0; 0; 0] [] [Stored (repeat false 5) example_text2] /\
  plain_pairs example_pairs /\ dates_fit example_pairs /\ written example_pairs (chars (code_of Notes)) (Some (chars "Some notes")) /\
  ~ In (chars "w") (map fst example_pairs).
Proof.
  split; [apply stored_stream; vm_compute; reflexivity|]. split; [apply stored_stream; vm_compute; reflexivity|].
  split; [split; [discriminate|repeat constructor; discriminate]|]. split.
  - constructor; [intros [E|E]; discriminate|constructor; [|constructor]]. intros _. exists 1758131161. split; [split; [repeat constructor; discriminate|reflexivity]|reflexivity].
  - split; [exists [], [(chars "m", chars "1758131161")]; split; [reflexivity|intros []]|]. intros [E|[E|[]]]; discriminate.
Qed.
Example C65_case_values :
  (result <- read_header ([120; 156] ++ stored example_text ++ [0; 0; 0; 0]) [] ;; Ok (get Notes result, get AcquisitionDate result, get Model result)) =
    Ok (Some (ByteValue (chars "Some notes")), Some (ByteValue (chars "1758131161")), None) /\
  (result <- read_header2 ([120; 156] ++ stored example_text2 ++ [0; 0; 0; 0]) [] ;; Ok (get Notes result, get AcquisitionDate result, get Model result)) =
    Ok (None, Some (PosixTime 1758131161), None).
Proof. split; vm_compute; reflexivity. Qed.

(** ** Missing lines *)
Lemma short_line b a : Forall (fun c => c <> 0) a -> forall last acc,
  (count_occ N.eq_dec a 10 = 0%nat /\ fst (line_from (a ++ 0 :: b) last acc) = None) \/
  exists r a', line_from (a ++ 0 :: b) last acc = (Some r, a' ++ 0 :: b) /\ count_occ N.eq_dec a 10 = S (count_occ N.eq_dec a' 10) /\ Forall (fun c => c <> 0) a'.
Proof.
  induction 1 as [|c a Hc Ha IH]; intros last acc; cbn [app line_from count_occ]; [left; split; reflexivity|].
  destruct (N.eqb_spec c 0); [contradiction|]. destruct (N.eqb_spec c 10) as [->|H].
  - right. exists (rev (if last =? 13 then tl acc else acc)), a. destruct (N.eq_dec 10 10); [|contradiction]. split; [reflexivity|]. split; [reflexivity|exact Ha].
  - destruct (N.eq_dec c 10); [contradiction|]. apply IH.
Qed.
Lemma short_text codes convert a b values : Forall (fun c => c <> 0) a -> (count_occ N.eq_dec a 10%N < 4)%nat -> read_lines codes convert (a ++ 0 :: b) values = Err.
Proof.
  intros H L. unfold read_lines, next_line.
  destruct (short_line b a H 0 []) as [[_ E]|(r1 & a1 & E1 & C1 & H1)]; [destruct (line_from _ 0 []) as [[]]; [discriminate|reflexivity]|rewrite E1].
  destruct (if list_eq_dec _ r1 _ then true else _); cbn [check bind]; [|reflexivity].
  destruct (short_line b a1 H1 0 []) as [[_ E]|(r2 & a2 & E2 & C2 & H2)]; [destruct (line_from (a1 ++ _) 0 []) as [[]]; [discriminate|reflexivity]|rewrite E2].
  destruct (if list_eq_dec _ r2 _ then true else _); cbn [check bind]; [|reflexivity].
  destruct (short_line b a2 H2 0 []) as [[_ E]|(r3 & a3 & E3 & C3 & H3)]; [destruct (line_from (a2 ++ _) 0 []) as [[]]; [discriminate|reflexivity]|rewrite E3].
  destruct (short_line b a3 H3 0 []) as [[_ E]|(r4 & a4 & E4 & C4 & H4)]; [destruct (line_from (a3 ++ _) 0 []) as [[]]; [discriminate|reflexivity]|]. lia.
Qed.

(** A text that ends before its fourth line does is an error, in both kinds of sections. *)
Theorem C65_missing_lines :
  forall data before text n units rest,
  zlib_decompress data (repeat 0 (N.to_nat (len data * 4))) = Ok (text, n) ->
  Forall (fun c => c <> 0) units -> (count_occ N.eq_dec units 10%N < 4)%nat ->
  (text = units ++ 0 :: rest -> read_header data before = Err) /\
  (forall big : bool, text = (if big then [254; 255] else [255; 254]) ++ utf16_bytes big (units ++ 0 :: rest) -> read_header2 data before = Err).
Proof.
  intros data before text n units rest Z H L. split.
  - intros ->. unfold read_header. rewrite Z. cbn [bind]. apply short_text; assumption.
  - intros big ->. unfold read_header2. rewrite Z. cbn [bind]. pose proof (units_ok big (units ++ 0 :: rest) []) as U. cbn [values_16bit] in U. rewrite !app_nil_r in U.
    transitivity (read_lines header2_codes convert_utf16 (values_16bit big (utf16_bytes big (units ++ 0 :: rest))) before); [destruct big; reflexivity|].
    rewrite U. apply short_text; assumption.
Qed.
Print Assumptions C65_missing_lines.
Example C65_missing_lines_case :
  read_header ([120; 156] ++ stored (chars "1" ++ [10] ++ chars "main" ++ [10; 97; 10; 0]) ++ [0; 0; 0; 0]) [] = Err.
Proof. vm_compute. reflexivity. Qed.

(** A text of more than four times the size of its compressed data is an error. *)
Definition long_pairs : list (list N * list N) := [(chars "a", repeat 120 500)].
Definition long_data : list N := [120; 1; 51; 228; 202; 77; 204; 204; 227; 74; 228; 170; 24; 5; 35; 14; 112; 1; 0; 237; 96; 236; 192].
Theorem C65_header_size_refuted :
  exists data pairs text, plain_pairs pairs /\ text = header_text (chars "1") [10] pairs [] /\
  zlib_decompress data (repeat 0 (length text)) = Ok (text, len text) /\ read_header data [] = Err.
Proof.
  exists long_data, long_pairs, (header_text (chars "1") [10] long_pairs []). split; [|split; [reflexivity|split; vm_compute; reflexivity]].
  split; [discriminate|]. constructor; [|constructor]. split; [repeat constructor; discriminate|]. apply Forall_forall. intros x Hx. apply repeat_spec in Hx. subst x. repeat split; discriminate.
Qed.
Print Assumptions C65_header_size_refuted.
