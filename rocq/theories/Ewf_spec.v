(** * What an EWF image is *)
From Verif Require Import Base Streams_spec Checksums_spec Part_spec Paths_spec P_C11.
From Verif Require Import Deflate_spec.

(** [n] bytes at [o] followed by their Adler-32 checksum. *)
Definition ewf_checked (file : list N) (o n : N) : Prop :=
  o + n + 4 <= len file /\ field file (o + n) 4 = adler32 1 (bytes_at file o n).

(** ** The sections of a segment file *)
(** A type is a name padded to 16 bytes. *)
Definition ewf_name (name : list N) : list N := name ++ repeat 0 (16 - length name).
Definition name_data : list N := ewf_name [100; 97; 116; 97].
Definition name_digest : list N := ewf_name [100; 105; 103; 101; 115; 116].
Definition name_disk : list N := ewf_name [100; 105; 115; 107].
Definition name_done : list N := ewf_name [100; 111; 110; 101].
Definition name_error2 : list N := ewf_name [101; 114; 114; 111; 114; 50].
Definition name_hash : list N := ewf_name [104; 97; 115; 104].
Definition name_header : list N := ewf_name [104; 101; 97; 100; 101; 114].
Definition name_header2 : list N := ewf_name [104; 101; 97; 100; 101; 114; 50].
Definition name_next : list N := ewf_name [110; 101; 120; 116].
Definition name_sectors : list N := ewf_name [115; 101; 99; 116; 111; 114; 115].
Definition name_table : list N := ewf_name [116; 97; 98; 108; 101].
Definition name_table2 : list N := ewf_name [116; 97; 98; 108; 101; 50].
Definition name_volume : list N := ewf_name [118; 111; 108; 117; 109; 101].
Definition ewf_names : list (list N) :=
  [name_data; name_digest; name_disk; name_done; name_error2; name_hash; name_header; name_header2; name_next; name_sectors;
   name_table; name_table2; name_volume].
(** Not a type of the format: the code takes it for that of the error2 section. *)
Definition name_errors2 : list N := ewf_name [101; 114; 114; 111; 114; 115; 50].

(** A header at [o]: the type, the offset of the next section and the size of this one. *)
Definition ewf_header_at (file : list N) (o : N) (type : list N) (next size : N) : Prop :=
  ewf_checked file o 72 /\ bytes_at file o 16 = type /\ field file (o + 16) 8 = next /\ field file (o + 24) 8 = size.

(** The sections from [o] on, as type, start and end: each ends where its header says the
    next one starts, the last is a done or a next section and ends the file. *)
Inductive ewf_layout (file : list N) : N -> list (list N * N * N) -> Prop :=
| layout_last : forall o type size, (type = name_done \/ type = name_next) ->
    ewf_header_at file o type o size -> (size = 0 \/ size = 76) -> o + 76 = len file ->
    ewf_layout file o [(type, o, o + 76)]
| layout_more : forall o type next size sections, type <> name_done -> type <> name_next ->
    ewf_header_at file o type next size -> (size = 0 \/ size = next - o) -> o + 76 <= next ->
    ewf_layout file next sections ->
    ewf_layout file o ((type, o, next) :: sections).

(** The file starts with a signature and its number. *)
Definition ewf_file_at (file : list N) (n : N) : Prop :=
  13 <= len file /\ bytes_at file 0 9 = [69; 86; 70; 9; 13; 10; 255; 0; 1] /\ field file 9 2 = n /\ bytes_at file 11 2 = [0; 0].

(** ** The volume *)
Record volume := { v_chunks : N; v_sectors_per_chunk : N; v_bytes_per_sector : N; v_sectors : N; v_identifier : list N }.
Definition v_chunk_size (v : volume) : N := v_sectors_per_chunk v * v_bytes_per_sector v.
Definition v_media_size (v : volume) : N := v_sectors v * v_bytes_per_sector v.
(** The volume at [o]: [size] is that of the section, and tells the two kinds apart. *)
Definition ewf_volume_at (file : list N) (o size : N) (v : volume) : Prop :=
  v_chunks v = field file (o + 4) 4 /\ v_sectors_per_chunk v = field file (o + 8) 4 /\
  v_bytes_per_sector v = field file (o + 12) 4 /\ v_sectors v = field file (o + 16) 4 /\
  (size = 170 /\ ewf_checked file o 90 /\ v_identifier v = repeat 0 16 \/
   size = 1128 /\ ewf_checked file o 1048 /\ v_identifier v = bytes_at file (o + 64) 16).
(** Chunks of less than 4 GiB, at least one sector. *)
Definition volume_ok (v : volume) : Prop :=
  0 < v_chunk_size v < two32 /\ 0 < v_media_size v /\ v_chunks v * v_chunk_size v < two64.

(** ** Chunk tables *)
Record ewf_chunk := { ec_segment : N; ec_offset : N; ec_size : N; ec_compressed : bool }.
(** The table in the [size] bytes at [o]: a base offset and the entries. *)
Definition ewf_table_at (file : list N) (o size base : N) (entries : list N) : Prop :=
  28 + 4 * len entries <= size <= 16777216 /\ o + size <= len file /\
  ewf_checked file o 20 /\ field file o 4 = len entries /\ field file (o + 8) 8 = base /\
  entries = map (fun i => field file (o + 24 + 4 * i) 4) (seqN 0 (length entries)) /\
  ewf_checked file (o + 24) (4 * len entries).
(** An entry is an offset, and whether the chunk is compressed. *)
Definition ewf_entry (e : N * bool) : N := if snd e then fst e + 0x80000000 else fst e.
(** The chunks are consecutive, the last one ends at [last]. Compressed chunks start in the
    first 2 GiB, as does the first chunk; the others in the first 4 GiB. *)
Fixpoint ewf_offsets_ok (base last : N) (l : list (N * bool)) : Prop :=
  match l with
  | [] => False
  | (o, c) :: l =>
      o < two32 /\ (c = true -> o < 0x80000000) /\
      match l with
      | [] => base + o <= last < base + o + two32
      | (o', _) :: _ => o < o' < o + 0x80000000 /\ ewf_offsets_ok base last l
      end
  end.
Fixpoint ewf_table_chunks (n base last : N) (l : list (N * bool)) : list ewf_chunk :=
  match l with
  | [] => []
  | (o, c) :: l =>
      {| ec_segment := n; ec_offset := base + o; ec_compressed := c;
         ec_size := match l with [] => last - (base + o) | (o', _) :: _ => o' - o end |} :: ewf_table_chunks n base last l
  end.

Section Spec.
  (** Which data is that of a header or header2 section. *)
  Context (header_ok header2_ok : list N -> Prop).

  (** The sections of segment file [n]: they turn the volume, if there was one in front of
      them, to a volume, and describe chunks. [last] is the end of the sectors section. *)
  Inductive ewf_sections (n : N) (file : list N) : option N -> option volume -> list (list N * N * N) ->
      option volume -> list ewf_chunk -> Prop :=
  | sections_nil : forall last v, ewf_sections n file last v [] v []
  | sections_volume : forall last type o e l v v' cs, n = 1 -> (type = name_disk \/ type = name_volume) ->
      ewf_volume_at file (o + 76) (e - o) v -> volume_ok v ->
      ewf_sections n file last (Some v) l v' cs ->
      ewf_sections n file last None ((type, o, e) :: l) v' cs
  | sections_sectors : forall last o e l v v' cs,
      ewf_sections n file (Some e) v l v' cs ->
      ewf_sections n file last v ((name_sectors, o, e) :: l) v' cs
  | sections_table : forall last o e l v v' cs base entries offset,
      ewf_table_at file (o + 76) (e - (o + 76)) base (map ewf_entry entries) ->
      hd_error (map fst entries) = Some offset -> offset < 0x80000000 ->
      ewf_offsets_ok base (match last with Some last => last | None => e end) entries ->
      ewf_sections n file last (Some v) l v' cs ->
      ewf_sections n file last (Some v) ((name_table, o, e) :: l) v'
        (ewf_table_chunks n base (match last with Some last => last | None => e end) entries ++ cs)
  | sections_table2 : forall last o e l v v' cs base entries,
      ewf_table_at file (o + 76) (e - (o + 76)) base entries ->
      ewf_sections n file last v l v' cs ->
      ewf_sections n file last v ((name_table2, o, e) :: l) v' cs
  | sections_data : forall last o e l v v' cs,
      ewf_checked file (o + 76) 1048 -> bytes_at file (o + 76 + 64) 16 = v_identifier v ->
      ewf_sections n file last (Some v) l v' cs ->
      ewf_sections n file last (Some v) ((name_data, o, e) :: l) v' cs
  | sections_digest : forall last o e l v v' cs, ewf_checked file (o + 76) 76 ->
      ewf_sections n file last v l v' cs -> ewf_sections n file last v ((name_digest, o, e) :: l) v' cs
  | sections_hash : forall last o e l v v' cs, ewf_checked file (o + 76) 32 ->
      ewf_sections n file last v l v' cs -> ewf_sections n file last v ((name_hash, o, e) :: l) v' cs
  | sections_error2 : forall last o e l v v' cs k, ewf_checked file (o + 76) 516 -> field file (o + 76) 4 = k ->
      ewf_checked file (o + 76 + 520) (8 * k) -> 524 + 8 * k <= e - (o + 76) <= 16777216 -> e <= len file ->
      ewf_sections n file last v l v' cs -> ewf_sections n file last v ((name_error2, o, e) :: l) v' cs
  | sections_header : forall last type o e l v v' cs, n = 1 ->
      (type = name_header /\ header_ok (bytes_at file (o + 76) (e - (o + 76))) \/
       type = name_header2 /\ header2_ok (bytes_at file (o + 76) (e - (o + 76)))) ->
      2 <= e - (o + 76) <= 16777216 -> e <= len file ->
      ewf_sections n file last v l v' cs -> ewf_sections n file last v ((type, o, e) :: l) v' cs
  | sections_end : forall last type o e l v v' cs, (type = name_done \/ type = name_next) ->
      ewf_sections n file last v l v' cs -> ewf_sections n file last v ((type, o, e) :: l) v' cs
  | sections_other : forall last type o e l v v' cs, ~ In type ewf_names -> type <> name_errors2 ->
      ewf_sections n file last v l v' cs -> ewf_sections n file last v ((type, o, e) :: l) v' cs.

  Definition ewf_last_type (l : list (list N * N * N)) : list N := fst (fst (List.last l ([], 0, 0))).
  (** The segment files from number [n] on: each but the last one ends with a next section,
      the last one with a done section. [find] gives the file of an extension. *)
  Inductive ewf_segments (find : list N -> option (list N)) (names : list (list N)) : N -> option volume -> volume -> list (list N) -> list ewf_chunk -> Prop :=
  | segments_last : forall n extension file l v v' cs,
      nth_error names (N.to_nat (n - 1)) = Some extension -> find extension = Some file ->
      wf_bytes file -> len file < two64 ->
      ewf_file_at file n -> ewf_layout file 13 l -> ewf_last_type l = name_done ->
      ewf_sections n file None v l (Some v') cs ->
      ewf_segments find names n v v' [file] cs
  | segments_more : forall n extension file l v v1 v' cs files cs',
      nth_error names (N.to_nat (n - 1)) = Some extension -> find extension = Some file ->
      wf_bytes file -> len file < two64 ->
      ewf_file_at file n -> ewf_layout file 13 l -> ewf_last_type l = name_next ->
      ewf_sections n file None v l v1 cs ->
      ewf_segments find names (n + 1) v1 v' files cs' ->
      ewf_segments find names n v v' (file :: files) (cs ++ cs').
End Spec.

(** ** The media *)
(** The data of a chunk: compressed with zlib, or as it is. *)
Definition ewf_chunk_holds (files : list (list N)) (chunk_size : N) (c : ewf_chunk) (data : list N) : Prop :=
  1 <= ec_segment c /\
  exists file, nth_error files (N.to_nat (ec_segment c - 1)) = Some file /\ len data <= chunk_size /\
  if ec_compressed c then
    ec_offset c + ec_size c <= len file /\
    exists header body trailer following blocks,
    bytes_at file (ec_offset c) (ec_size c) = header ++ body ++ trailer ++ following /\
    zlib_stream header body trailer following blocks /\ data = blocks_meaning blocks /\
    (following = [] \/ len data = chunk_size /\ be_value trailer = adler32_closed data)
  else ec_offset c + len data <= len file /\ data = bytes_at file (ec_offset c) (len data).
(** All chunks but the last one are full. *)
Definition ewf_full (chunk_size : N) (datas : list (list N)) : Prop := Forall (fun d => len d = chunk_size) (removelast datas).
(** Compressed chunks that start at the same offset, of whichever segment file, are equal. *)
Definition ewf_offsets_differ (cs : list ewf_chunk) (datas : list (list N)) : Prop :=
  forall i j c c' d d', nth_error cs i = Some c -> nth_error cs j = Some c' -> nth_error datas i = Some d -> nth_error datas j = Some d' ->
  ec_compressed c = true -> ec_compressed c' = true -> ec_offset c = ec_offset c' -> d = d'.
