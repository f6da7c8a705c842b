(** A reader of flat Parquet files with version 1 data pages, written from parquet-format's
    README.md and parquet.thrift.  It is strict: sizes, offsets, counts, types and names that do
    not agree with each other are errors. *)
From Verif Require Import Base VarintSpec ThriftSpec BuffersSpec RleSpec MetaSpec PlainSpec.

(** A leaf column of the schema. *)
Record leaf : Type := Leaf { l_name : bytes; l_type : ptype; l_optional : bool; l_converted : option Z }.
(** A file's content: its columns, and per row group the cells of each column. *)
Record table : Type := Table { t_leaves : list leaf; t_groups : list (list (list (option cell))) }.

Definition ptype_code (t : ptype) : Z :=
  match t with P_BOOLEAN => 0 | P_INT32 => 1 | P_INT64 => 2 | P_DOUBLE => 5 | P_BYTE_ARRAY => 6 end%Z.
Definition ptype_of_code (z : Z) : option ptype :=
  (if z =? 0 then Some P_BOOLEAN else if z =? 1 then Some P_INT32 else if z =? 2 then Some P_INT64 else
   if z =? 5 then Some P_DOUBLE else if z =? 6 then Some P_BYTE_ARRAY else None)%Z.

Definition read_leaf (s : schema_element) : option leaf :=
  let? code := se_type s in
  let? t := ptype_of_code code in
  let? rep := se_repetition s in
  if ((rep =? 0) || (rep =? 1))%Z && match se_num_children s with None => true | Some _ => false end
  then Some (Leaf (se_name s) t (rep =? 1)%Z (se_converted s))
  else None.
(** The root and then its children. *)
Definition read_schema (l : list schema_element) : option (list leaf) :=
  match l with
  | [] => None
  | root :: leaves =>
      match se_type root, se_num_children root with
      | None, Some n => if (n =? Z.of_nat (length leaves))%Z then all_some (map read_leaf leaves) else None
      | _, _ => None
      end
  end.

Definition MAGIC : bytes := [80; 65; 82; 49]%N.   (* PAR1 *)
(** [n] bytes from offset [off]. *)
Definition bytes_at (file : bytes) (off n : Z) : option bytes :=
  if ((0 <=? off) && (0 <=? n) && (off + n <=? Z.of_nat (length file)))%Z
  then Some (firstn (Z.to_nat n) (skipn (Z.to_nat off) file)) else None.
(** The footer: the last eight bytes are its length and the magic. *)
Definition footer (file : bytes) : option bytes :=
  let size := Z.of_nat (length file) in
  let? head := bytes_at file 0 4 in
  let? tail := bytes_at file (size - 8) 8 in
  let n := Z.of_N (le_value (firstn 4 tail)) in
  if (if list_eq_dec N.eq_dec head MAGIC then true else false) && (if list_eq_dec N.eq_dec (skipn 4 tail) MAGIC then true else false)
     && (12 + n <=? size)%Z
  then bytes_at file (size - 8 - n) n else None.

(** A chunk starts at its dictionary page, if it has one.  Chunks that follow each other without
    gap or overlap from one offset to another. *)
Definition chunk_start (m : column_meta) : Z := match cm_dict_offset m with Some d => d | None => cm_data_offset m end.
Fixpoint consecutive (from upto : Z) (chunks : list column_chunk) : Prop :=
  match chunks with
  | [] => from = upto
  | ch :: r => exists m, cc_meta ch = Some m /\ chunk_start m = from /\ (0 < cm_compressed m)%Z /\ consecutive (from + cm_compressed m) upto r
  end.

(** The sum of a member over the chunks of a row group, and where its first page is. *)
Definition total (f : column_meta -> Z) (chunks : list column_chunk) : Z :=
  fold_right Z.add 0%Z (map (fun ch => match cc_meta ch with Some m => f m | None => 0%Z end) chunks).
Definition first_page (chunks : list column_chunk) : option Z :=
  match chunks with [] => None | ch :: _ => option_map chunk_start (cc_meta ch) end.

Section Reader.
(** The decompressor for a codec number other than 0. *)
Variable decompress : Z -> bytes -> option bytes.

(** Page content after the header, decompressed; its size must be as announced. *)
Definition page_content (codec : Z) (h : page_header) (bs : bytes) : option (bytes * bytes) :=
  if (0 <=? ph_compressed h)%Z then
    match take (Z.to_N (ph_compressed h)) bs with
    | None => None
    | Some (stored, rest) =>
        let? content := if (codec =? 0)%Z then Some stored else decompress codec stored in
        if (Z.of_nat (length content) =? ph_uncompressed h)%Z then Some (content, rest) else None
    end
  else None.
(** A dictionary page. *)
Definition read_dictionary_page (t : ptype) (codec : Z) (bs : bytes) : option (list cell * bytes) :=
  match read_as parse_page_header bs with
  | Some (h, r) =>
      match ph_dict h with
      | Some d =>
          if ((ph_type h =? 2) && (di_encoding d =? PLAIN) && (0 <=? di_num_values d))%Z then
            match page_content codec h r with
            | Some (content, rest) =>
                match read_plain t (Z.to_nat (di_num_values d)) content with
                | Some (dict, []) => Some (dict, rest)
                | _ => None
                end
            | None => None
            end
          else None
      | None => None
      end
  | None => None
  end.
(** Data pages to the end of the chunk; levels are RLE encoded (3). *)
Fixpoint read_data_pages (fuel : nat) (t : ptype) (optional : bool) (codec : Z) (dict : list cell) (bs : bytes)
  : option (list (option cell)) :=
  match bs, fuel with
  | [], _ => Some []
  | _, O => None
  | _, S f =>
      match read_as parse_page_header bs with
      | Some (h, r) =>
          match ph_data h with
          | Some d =>
              if ((ph_type h =? 0) && (dp_def_encoding d =? 3) && (0 <=? dp_num_values d))%Z then
                match page_content codec h r with
                | Some (content, rest) =>
                    match read_page t optional dict (dp_encoding d) (Z.to_nat (dp_num_values d)) content,
                          read_data_pages f t optional codec dict rest with
                    | Some cells, Some more => Some (cells ++ more)
                    | _, _ => None
                    end
                | None => None
                end
              else None
          | None => None
          end
      | None => None
      end
  end.
(** A column chunk: from its first page (dictionary, if any), [cm_compressed] bytes; the
    dictionary page ends where the data pages are said to begin. *)
Definition read_chunk (file : bytes) (lf : leaf) (m : column_meta) : option (list (option cell)) :=
  let start := chunk_start m in
  let? bs := bytes_at file start (cm_compressed m) in
  match (match cm_dict_offset m with
         | None => Some ([], bs)
         | Some _ => read_dictionary_page (l_type lf) (cm_codec m) bs
         end) with
  | None => None
  | Some (dict, data) =>
      let? cells := read_data_pages (length data) (l_type lf) (l_optional lf) (cm_codec m) dict data in
      if (start + cm_compressed m - Z.of_nat (length data) =? cm_data_offset m)%Z
         && (cm_num_values m =? Z.of_nat (length cells))%Z
         && (cm_type m =? ptype_code (l_type lf))%Z
         && (if list_eq_dec (list_eq_dec N.eq_dec) (cm_path m) [l_name lf] then true else false)
      then Some cells else None
  end.
Fixpoint read_chunks (file : bytes) (leaves : list leaf) (chunks : list column_chunk) (rows : Z)
  : option (list (list (option cell))) :=
  match leaves, chunks with
  | [], [] => Some []
  | lf :: ls, ch :: cs =>
      let? m := cc_meta ch in
      let? cells := read_chunk file lf m in
      if (rows =? Z.of_nat (length cells))%Z
      then let? more := read_chunks file ls cs rows in Some (cells :: more) else None
  | _, _ => None
  end.
Definition read_file (file : bytes) : option table :=
  let? foot := footer file in
  match read_as parse_file_meta foot with
  | Some (fm, []) =>
      let? leaves := read_schema (fm_schema fm) in
      let? groups := all_some (map (fun g => read_chunks file leaves (rg_columns g) (rg_num_rows g)) (fm_row_groups fm)) in
      if (fm_num_rows fm =? fold_right Z.add 0 (map rg_num_rows (fm_row_groups fm)))%Z
      then Some (Table leaves groups) else None
  | _ => None
  end.
End Reader.
