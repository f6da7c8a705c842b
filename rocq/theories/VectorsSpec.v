(** A column chunk held in memory, as a reader that knows how it was compressed decodes it. *)
From Verif Require Import Base RleSpec PlainSpec StatsSpec ParquetModel.

(** A page as stored: as it is, or, if a codec was asked for, possibly compressed. *)
Definition stored_as (decompress : compression -> bytes -> option bytes) (codec : compression) (stored page : bytes) : Prop :=
  stored = page \/ (codec <> NONE /\ length stored < length page /\ decompress codec stored = Some page).

(** The rows of a chunk: one PLAIN page, or a dictionary page with [entries] and a page of indices. *)
Definition plain_chunk_reads decompress codec (t : ptype) (optional : bool) (data : bytes) (rows : list (option cell)) : Prop :=
  exists page, stored_as decompress codec data page /\ read_page t optional [] PLAIN (length rows) page = Some rows.
Definition dictionary_chunk_reads decompress codec (t : ptype) (optional : bool) (entries : list cell) (data : bytes) (rows : list (option cell)) : Prop :=
  exists d p dict_page page, data = d ++ p /\ stored_as decompress codec d dict_page /\ stored_as decompress codec p page /\
    read_plain t (length entries) dict_page = Some (entries, []) /\
    read_page t optional entries RLE_DICTIONARY (length rows) page = Some rows.

(** There is a null. *)
Definition some_null {V} (rows : list (option V)) : bool := existsb (fun r => match r with None => true | Some _ => false end) rows.

(** As many null flags as values, or no flags at all. *)
Definition shape {V} (values : list V) (nulls : list bool) : Prop := nulls = [] \/ length nulls = length values.
(** What the library compresses it can decompress. *)
Definition lossless (library decompress : compression -> bytes -> option bytes) : Prop :=
  forall c data out, library c data = Some out -> decompress c out = Some data.
(** Statistics given by the caller do not claim more nulls than rows. *)
Definition sensible {V} (precomputed : option column_statistics) (values : list V) : Prop :=
  match precomputed with Some s => (cs_null_count s <= Z.of_nat (length values))%Z | None => True end.
(** Statistics and number of nulls: as the caller said, or else as described. *)
Definition statistics_are (describe : column_statistics -> Prop) (null_count : nat) (precomputed : option column_statistics) (sn : column_statistics * Z) : Prop :=
  match precomputed with
  | Some s => fst sn = s /\ snd sn = cs_null_count s
  | None => describe (fst sn) /\ snd sn = Z.of_nat null_count
  end.
