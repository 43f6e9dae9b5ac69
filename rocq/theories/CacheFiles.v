(** * Map files of the cache: MapInfo, t3HeightMap, DocumentHeader *)
From Verif Require Import Base Utf8.
#[local] Open Scope string_scope.
#[local] Open Scope Z_scope.
#[local] Open Scope list_scope.

(** ** nom's byte parsers (external): complete versions of [tag], [take],
    [take_while]; each returns the remaining input. *)
Fixpoint p_tag (t l : list Z) : outcome (list Z) :=
  match t, l with
  | [], _ => Ok l
  | a :: t', b :: l' => if a =? b then p_tag t' l' else Err ENom
  | _ :: _, [] => Err ENom
  end.
Definition p_take (n : nat) (l : list Z) : outcome (list Z * list Z) :=
  if (n <=? length l)%nat then Ok (skipn n l, firstn n l) else Err ENom.
Fixpoint p_while (f : Z -> bool) (l : list Z) : list Z * list Z :=
  match l with
  | b :: l' => if f b then let (r, t) := p_while f l' in (r, b :: t) else (l, [])
  | [] => ([], [])
  end.
(** [i32(Little)], [u16(Little)] on exactly 4 and 2 bytes. *)
Fixpoint le_bytes (l : list Z) : Z := match l with [] => 0 | b :: l' => b + 256 * le_bytes l' end.
Definition le_i32 (l : list Z) : Z := as_i32 (le_bytes l).
Definition p_i32 (l : list Z) : outcome (list Z * Z) := do (r, b) <- p_take 4 l; Ok (r, le_i32 b).
Definition p_u16 (l : list Z) : outcome (list Z * Z) := do (r, b) <- p_take 2 l; Ok (r, le_bytes b).
(** [i32] arithmetic. *)
Definition ovf_i32 (bd : build) (z : Z) : outcome Z := if in_i32 z then Ok z else match bd with Checked => Panic | Wrapping => Ok (as_i32 z) end.

(** [String::from_utf8_lossy(l).to_string()] (std, external): every maximal
    prefix of a character that breaks off is replaced by U+FFFD. *)
Definition fffd : list Z := [0xef; 0xbf; 0xbd].
Definition second_ok (b0 b1 : Z) : bool :=
  if b0 =? 0xe0 then (0xa0 <=? b1) && (b1 <=? 0xbf) else if b0 =? 0xed then (0x80 <=? b1) && (b1 <=? 0x9f)
  else if b0 =? 0xf0 then (0x90 <=? b1) && (b1 <=? 0xbf) else if b0 =? 0xf4 then (0x80 <=? b1) && (b1 <=? 0x8f) else is_cont b1.
Fixpoint lossy (l : list Z) : list Z :=
  match l with
  | [] => []
  | b0 :: l1 =>
      if b0 <=? 0x7f then b0 :: lossy l1
      else if (0xc2 <=? b0) && (b0 <=? 0xdf) then
        match l1 with
        | b1 :: l2 => if is_cont b1 then b0 :: b1 :: lossy l2 else fffd ++ lossy l1
        | [] => fffd
        end
      else if (0xe0 <=? b0) && (b0 <=? 0xef) then
        match l1 with
        | b1 :: l2 =>
            if second_ok b0 b1 then
              match l2 with
              | b2 :: l3 => if is_cont b2 then b0 :: b1 :: b2 :: lossy l3 else fffd ++ lossy l2
              | [] => fffd
              end
            else fffd ++ lossy l1
        | [] => fffd
        end
      else if (0xf0 <=? b0) && (b0 <=? 0xf4) then
        match l1 with
        | b1 :: l2 =>
            if second_ok b0 b1 then
              match l2 with
              | b2 :: l3 =>
                  if is_cont b2 then
                    match l3 with
                    | b3 :: l4 => if is_cont b3 then b0 :: b1 :: b2 :: b3 :: lossy l4 else fffd ++ lossy l3
                    | [] => fffd
                    end
                  else fffd ++ lossy l2
              | [] => fffd
              end
            else fffd ++ lossy l1
        | [] => fffd
        end
      else fffd ++ lossy l1
  end.
Definition from_utf8_lossy (l : list Z) : string := str_of_bytes (lossy l).

(** ** MapInfo *)
(** Model of src/cache_handles/map_info.rs:23-40 [MapInfo]. *)
Record map_info := mk_map_info {
  mi_version : Z; mi_width : Z; mi_height : Z; mi_first : string; mi_second : string; mi_third : string; mi_fourth : string;
  mi_left : Z; mi_bottom : Z; mi_right : Z; mi_top : Z }.
(** The string steps of [MapInfo::parse]: the bytes before the next zero, and
    the zero itself. *)
Definition p_cstring (l : list Z) : outcome (list Z * string) :=
  let (r, s) := p_while (fun x => negb (x =? 0)) l in do (r, _) <- p_take 1 r; Ok (r, from_utf8_lossy s).
(** Model of src/cache_handles/map_info.rs:51-189 [MapInfo::parse]. *)
Definition parse_map_info (input : list Z) : outcome (list Z * map_info) :=
  do tail <- p_tag [73; 112; 97; 77] input;
  do (tail, file_version) <- p_i32 tail;
  do tail <- (if 24 <? file_version then do (t, _) <- p_take 8 tail; Ok t else Ok tail);
  do (tail, cell_width) <- p_i32 tail;
  do (tail, cell_height) <- p_i32 tail;
  if (256 <? cell_width) || (256 <? cell_height) then Err (EOther "InvalidMapSize") else
  do (tail, _) <- p_take 8 tail;
  let (tail, _) := p_while (fun x => x =? 0) tail in
  do (tail, first_string) <- p_cstring tail;
  do (tail, second_string) <- p_cstring tail;
  do (tail, _) <- p_take 5 tail;
  do (tail, third_string) <- p_cstring tail;
  do (tail, fourth_string) <- p_cstring tail;
  do (tail, cell_left) <- p_i32 tail;
  do (tail, cell_bottom) <- p_i32 tail;
  do (tail, cell_right) <- p_i32 tail;
  do (tail, cell_top) <- p_i32 tail;
  if cell_right <=? cell_left then Err (EOther "InvalidCoordinateBounds") else
  if cell_top <=? cell_bottom then Err (EOther "InvalidCoordinateBounds") else
  if cell_width <? cell_right then Err (EOther "InvalidCoordinateBounds") else
  if cell_height <? cell_top then Err (EOther "InvalidCoordinateBounds") else
  Ok (tail, mk_map_info file_version cell_width cell_height first_string second_string third_string fourth_string cell_left cell_bottom cell_right cell_top).
(** Models of src/cache_handles/map_info.rs:192-236. *)
Definition pair32 (bd : build) (x y : Z) : outcome (Z * Z) := do a <- ovf_i32 bd x; do b <- ovf_i32 bd y; Ok (a, b).
Definition cell_dim_map (m : map_info) : Z * Z := (mi_width m, mi_height m).
Definition terrain_dim_map (bd : build) (m : map_info) : outcome (Z * Z) := pair32 bd (mi_width m + 1) (mi_height m + 1).
Definition cell_dim_playable (bd : build) (m : map_info) : outcome (Z * Z) := pair32 bd (mi_right m - mi_left m) (mi_top m - mi_bottom m).
Definition terrain_dim_playable (bd : build) (m : map_info) : outcome (Z * Z) := do (x, y) <- cell_dim_playable bd m; pair32 bd (x + 1) (y + 1).
Definition cell_left_bottom (m : map_info) : Z * Z := (mi_left m, mi_bottom m).
Definition cell_right_top (m : map_info) : Z * Z := (mi_right m, mi_top m).
Definition terrain_left_bottom (m : map_info) : Z * Z := (mi_left m, mi_bottom m).
Definition terrain_right_top (bd : build) (m : map_info) : outcome (Z * Z) := pair32 bd (mi_width m + 1) (mi_height m + 1).
(** Model of src/cache_handles/map/coords.rs:166-171
    [PlayableTerrainCoord::from_map_terrain]. *)
Definition playable_from_terrain (bd : build) (m : map_info) (c : Z * Z) : outcome (Z * Z) := pair32 bd (fst c - mi_left m) (snd c - mi_bottom m).

(** ** t3HeightMap *)
(** Model of src/cache_handles/t3_height_map.rs:13-17 [T3HeightMap]. *)
Record height_map := mk_height_map { hm_width : Z; hm_height : Z; hm_data : list Z }.
(** The loop of src/cache_handles/t3_height_map.rs:75-87. *)
Fixpoint height_loop (n : nat) (tail data : list Z) : outcome (list Z * list Z) :=
  match n with
  | O => Ok (tail, data)
  | Datatypes.S n' =>
      do (tail, unit_bytes) <- p_take 6 tail;
      match nth_error unit_bytes 4 with
      | None => Panic
      | Some b => if 4 <? b then Err (EOther "T3HeightUnitOutOfBounds") else height_loop n' tail (data ++ [b])
      end
  end.
(** Model of src/cache_handles/t3_height_map.rs:33-97 [T3HeightMap::parse].
    [as usize] of a negative [i32] is at least 2^64 - 2^31: the file is then too
    short, as files are. *)
Definition parse_height_map (bd : build) (input : list Z) (m : map_info) : outcome (list Z * height_map) :=
  do tail <- p_tag [72; 77; 65; 80] input;
  do tail <- p_tag [0x65; 0; 0; 0] tail;
  do (tail, width) <- p_i32 tail;
  do (tail, height) <- p_i32 tail;
  do dims <- terrain_dim_map bd m;
  if negb ((width =? fst dims) && (height =? snd dims)) then Err (EOther "T3HeightDimDoNotMatchMapInfoDim") else
  do (tail, _) <- p_take 16 tail;
  do area <- ovf_i32 bd (width * height);
  do size <- ovf_i32 bd (area * 6);
  if Z.of_nat (length tail) <? as_u64 size then Err (EOther "T3HeightNotEnoughBytes") else
  do area <- ovf_i32 bd (width * height);
  do (tail, data) <- height_loop (Z.to_nat area) tail [];
  Ok (tail, mk_height_map width height data).

(** ** DocumentHeader *)
(** Model of src/cache_handles/document_header.rs:14-27 [DocumentHeader]. *)
Record document_header := mk_document {
  dh_x : Z; dh_y : Z; dh_epoch1 : Z; dh_epoch2 : Z; dh_mod : string; dh_name : string; dh_long : string; dh_short : string }.
(** Model of src/cache_handles/document_header.rs:31-62 [set_field_by_name]. *)
Definition set_field (h : document_header) (name value : string) : document_header :=
  if (name =? "DocInfo/Name")%string then mk_document (dh_x h) (dh_y h) (dh_epoch1 h) (dh_epoch2 h) (dh_mod h) value (dh_long h) (dh_short h)
  else if (name =? "DocInfo/DescLong")%string then mk_document (dh_x h) (dh_y h) (dh_epoch1 h) (dh_epoch2 h) (dh_mod h) (dh_name h) value (dh_short h)
  else if (name =? "DocInfo/DescShort")%string then mk_document (dh_x h) (dh_y h) (dh_epoch1 h) (dh_epoch2 h) (dh_mod h) (dh_name h) (dh_long h) value
  else h.
Definition void_mod : string := "bnet:Void (Mod)/0.0/999,file:Mods/Void.SC2Mod".
(** The loop of src/cache_handles/document_header.rs:151-181; [tail] is
    [new_tail]. *)
Fixpoint field_loop (n : nat) (tail : list Z) (h : document_header) : outcome document_header :=
  match n with
  | O => Ok h
  | Datatypes.S n' =>
      do (tail, size) <- p_u16 tail;
      do (tail, name) <- p_take (Z.to_nat size) tail;
      do tail <- p_tag [83; 85; 110; 101] tail;
      do (tail, size) <- p_u16 tail;
      do (tail, value) <- p_take (Z.to_nat size) tail;
      field_loop n' tail (set_field h (from_utf8_lossy name) (from_utf8_lossy value))
  end.
(** Model of src/cache_handles/document_header.rs:73-184 [DocumentHeader::parse].
    The remainder returned is the outer [tail], read before the element count
    delimiter. *)
Definition parse_document (input : list Z) : outcome (list Z * document_header) :=
  do tail <- p_tag [72; 50; 67; 83] input;
  do (tail, _) <- p_i32 tail;
  do (tail, _) <- p_take 4 tail;
  do (tail, _) <- p_take 4 tail;
  do (tail, x1) <- p_i32 tail;
  do (tail, y1) <- p_i32 tail;
  do (tail, _) <- p_take 4 tail;
  do (tail, e1) <- p_i32 tail;
  do (tail, e2) <- p_i32 tail;
  do (tail, _) <- p_take 12 tail;
  let (tail, mod_bytes) := p_while (fun x => negb (x =? 0)) tail in
  let mod_info := from_utf8_lossy mod_bytes in
  if negb (mod_info =? void_mod)%string then Err (EOther "Only parsed Void typed.") else
  do (tail, _) <- p_take 1 tail;
  do (tail, count) <- p_u16 tail;
  do new_tail <- p_tag [0; 0] tail;
  do h <- field_loop (Z.to_nat count) new_tail (mk_document x1 y1 e1 e2 mod_info "" "" "");
  Ok (tail, h).
