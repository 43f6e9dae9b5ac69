(** * The layout of the map files *)
From Verif Require Import Base Utf8 CacheFiles.
#[local] Open Scope string_scope.
#[local] Open Scope Z_scope.
#[local] Open Scope list_scope.

(** Little-endian bytes of a 32-bit and a 16-bit number. *)
Definition le32 (z : Z) : list Z := [z mod 256; z / 256 mod 256; z / 65536 mod 256; z / 16777216 mod 256].
Definition le16 (z : Z) : list Z := [z mod 256; z / 256 mod 256].
Definition ascii_bytes (s : string) : list Z := map (fun c => Z.of_N (Ascii.N_of_ascii c)) (list_ascii_of_string s).
Definition is_i32 (z : Z) : Prop := - 2147483648 <= z < 2147483648.
(** Bytes of a zero-terminated text. *)
Definition cstring (s : list Z) : Prop := bytes_ok s /\ ~ In 0 s.

(** A MapInfo file: the values, four texts, and the bytes nobody understands. *)
Record map_file := mk_map_file {
  mf_version : Z; mf_extra : list Z; mf_width : Z; mf_height : Z; mf_unknown : list Z; mf_padding : nat;
  mf_s1 : list Z; mf_s2 : list Z; mf_five : list Z; mf_s3 : list Z; mf_s4 : list Z;
  mf_left : Z; mf_bottom : Z; mf_right : Z; mf_top : Z }.
Definition map_bytes (f : map_file) : list Z :=
  ascii_bytes "IpaM" ++ le32 (mf_version f) ++ mf_extra f ++ le32 (mf_width f) ++ le32 (mf_height f) ++ mf_unknown f ++ repeat 0 (mf_padding f) ++
  mf_s1 f ++ [0] ++ mf_s2 f ++ [0] ++ mf_five f ++ mf_s3 f ++ [0] ++ mf_s4 f ++ [0] ++
  le32 (mf_left f) ++ le32 (mf_bottom f) ++ le32 (mf_right f) ++ le32 (mf_top f).
Definition map_file_ok (f : map_file) : Prop :=
  is_i32 (mf_version f) /\ is_i32 (mf_width f) /\ is_i32 (mf_height f) /\ is_i32 (mf_left f) /\ is_i32 (mf_bottom f) /\ is_i32 (mf_right f) /\ is_i32 (mf_top f) /\
  length (mf_extra f) = (if 24 <? mf_version f then 8%nat else 0%nat) /\ length (mf_unknown f) = 8%nat /\ length (mf_five f) = 5%nat /\
  cstring (mf_s1 f) /\ cstring (mf_s2 f) /\ cstring (mf_s3 f) /\ cstring (mf_s4 f).
(** The playable rectangle is not empty and inside of a map of at most 256. *)
Definition map_file_fits (f : map_file) : Prop :=
  mf_width f <= 256 /\ mf_height f <= 256 /\ mf_left f < mf_right f <= mf_width f /\ mf_bottom f < mf_top f <= mf_height f.
(** What it should be read as. *)
Definition map_of_file (f : map_file) : map_info :=
  mk_map_info (mf_version f) (mf_width f) (mf_height f) (from_utf8_lossy (mf_s1 f)) (from_utf8_lossy (mf_s2 f)) (from_utf8_lossy (mf_s3 f)) (from_utf8_lossy (mf_s4 f))
    (mf_left f) (mf_bottom f) (mf_right f) (mf_top f).

(** A field of a DocumentHeader: its name and its value. *)
Definition field_bytes (f : list Z * list Z) : list Z :=
  le16 (Z.of_nat (length (fst f))) ++ fst f ++ ascii_bytes "SUne" ++ le16 (Z.of_nat (length (snd f))) ++ snd f.
Definition field_ok (f : list Z * list Z) : Prop := Z.of_nat (length (fst f)) < 65536 /\ Z.of_nat (length (snd f)) < 65536.
(** A DocumentHeader file up to its number of fields. *)
Record doc_file := mk_doc_file {
  df_version : Z; df_four1 : list Z; df_four2 : list Z; df_x : Z; df_y : Z; df_four3 : list Z; df_e1 : Z; df_e2 : Z; df_twelve : list Z; df_fields : list (list Z * list Z) }.
Definition doc_head (f : doc_file) : list Z :=
  ascii_bytes "H2CS" ++ le32 (df_version f) ++ df_four1 f ++ df_four2 f ++ le32 (df_x f) ++ le32 (df_y f) ++ df_four3 f ++ le32 (df_e1 f) ++ le32 (df_e2 f) ++ df_twelve f ++
  ascii_bytes "bnet:Void (Mod)/0.0/999,file:Mods/Void.SC2Mod" ++ [0] ++ le16 (Z.of_nat (length (df_fields f))).
Definition doc_body (f : doc_file) : list Z := [0; 0] ++ flat_map field_bytes (df_fields f).
Definition doc_file_ok (f : doc_file) : Prop :=
  is_i32 (df_version f) /\ is_i32 (df_x f) /\ is_i32 (df_y f) /\ is_i32 (df_e1 f) /\ is_i32 (df_e2 f) /\
  length (df_four1 f) = 4%nat /\ length (df_four2 f) = 4%nat /\ length (df_four3 f) = 4%nat /\ length (df_twelve f) = 12%nat /\
  Z.of_nat (length (df_fields f)) < 65536 /\ Forall field_ok (df_fields f).
(** The value of the last field with this name; empty if there is none. *)
Fixpoint last_value (name : string) (fields : list (list Z * list Z)) (default : string) : string :=
  match fields with
  | [] => default
  | f :: fs => last_value name fs (if String.eqb (from_utf8_lossy (fst f)) name then from_utf8_lossy (snd f) else default)
  end.
Definition document_of_file (f : doc_file) : document_header :=
  mk_document (df_x f) (df_y f) (df_e1 f) (df_e2 f) "bnet:Void (Mod)/0.0/999,file:Mods/Void.SC2Mod"
    (last_value "DocInfo/Name" (df_fields f) "") (last_value "DocInfo/DescLong" (df_fields f) "") (last_value "DocInfo/DescShort" (df_fields f) "").
