(** Model of util/database.go: the in-memory device database, its JSON form, its file and opening devices through it.
    Also insteon.go:81-121 (DevCat text and JSON) and devices/device.go:153-160 (DeviceInfo and its JSON field names). *)
From Coq Require Import ZArith List Bool.
From Verif Require Import GoBase GoText GoJson GoProg Address Command Message MsgWriter BasicDevice Query.
Import ListNotations.
Open Scope Z_scope.

(** A Go map from addresses to device information: an association list without repeated keys; its order stands for Go's
    (arbitrary) iteration order. *)
Definition dbmap : Type := list (Z * dinfo).
Definition mget (m : dbmap) (a : Z) : option dinfo :=
  match find (fun kv => fst kv =? a) m with Some kv => Some (snd kv) | None => None end.
Fixpoint mset (m : dbmap) (a : Z) (v : dinfo) : dbmap :=
  match m with
  | [] => [(a, v)]
  | (k, w) :: t => if k =? a then (k, v) :: t else (k, w) :: mset t a v
  end.

(** util/database.go:101-104 [memDB]; [None] is a nil map. *)
Record memdb : Type := mkDB { db_values : option dbmap; db_dirty : bool }.
Definition db_map (db : memdb) : dbmap := match db_values db with Some m => m | None => [] end.

(** util/database.go:65-69 [NewMemDB]. *)
Definition new_memdb : memdb := mkDB (Some []) false.

(** util/database.go:115-118 [memDB.Get]: the information (the zero value when absent) and whether it was found. *)
Definition db_get (db : memdb) (a : Z) : dinfo * bool :=
  match mget (db_map db) a with Some i => (i, true) | None => (dinfo_zero, false) end.

(** Go's == on DeviceInfo. *)
Definition dinfo_eqb (x y : dinfo) : bool :=
  (di_addr x =? di_addr y) && (di_dc0 x =? di_dc0 y) && (di_dc1 x =? di_dc1 y) && (di_fw x =? di_fw y) && (di_engine x =? di_engine y).

(** util/database.go:124-130 [memDB.Put]: assigning to a nil map panics.  The error returned is always nil. *)
Definition db_put (db : memdb) (info : dinfo) : outcome memdb :=
  if dinfo_eqb (fst (db_get db (di_addr info))) info then Ret db
  else match db_values db with
       | None => Panic
       | Some m => Ret (mkDB (Some (mset m (di_addr info) info)) true)
       end.

(** insteon.go:81-88 [DevCat.In]. *)
Definition dc_in (info : dinfo) (domains : list Z) : bool := existsb (fun d => di_dc0 info =? d) domains.
(** util/database.go:106-113 [memDB.Filter]. *)
Definition db_filter (db : memdb) (domains : list Z) : list Z :=
  map fst (filter (fun kv => dc_in (snd kv) domains) (db_map db)).

(** util/database.go:140-142 [NeedsSaving]. *)
Definition db_needs_saving (db : memdb) : bool := db_dirty db.

(** insteon.go:93-95, 105-107 [DevCat.String] and the text inside its JSON form. *)
Definition devcat_string (dc0 dc1 : Z) : list Z := fmt_02x dc0 ++ [ch_dot] ++ fmt_02x dc1.
(** insteon.go:111-121 [DevCat.UnmarshalJSON] on the text of a JSON string (Sscanf "%02x.%02x"). *)
Definition devcat_scan (s : list Z) : option (Z * Z) :=
  match scan_hex8 (Some 2%nat) s with
  | None => None
  | Some (x, r1) =>
      match scan_lit ch_dot r1 with
      | None => None
      | Some r2 => match scan_hex8 (Some 2%nat) r2 with None => None | Some (y, _) => Some (x, y) end
      end
  end.

(** The JSON names of the fields (devices/device.go:155-159): address, devCat, firmwareVersion, engineVersion. *)
Definition n_address : list Z := [97; 100; 100; 114; 101; 115; 115].
Definition n_devCat : list Z := [100; 101; 118; 67; 97; 116].
Definition n_firmwareVersion : list Z := [102; 105; 114; 109; 119; 97; 114; 101; 86; 101; 114; 115; 105; 111; 110].
Definition n_engineVersion : list Z := [101; 110; 103; 105; 110; 101; 86; 101; 114; 115; 105; 111; 110].

(** encoding/json of a DeviceInfo: the fields in order (address.go:83-85 [MarshalJSON]). *)
Definition info_json (i : dinfo) : json :=
  JObj [(n_address, JStr (addr_string (di_addr i)));
        (n_devCat, JStr (devcat_string (di_dc0 i) (di_dc1 i)));
        (n_firmwareVersion, JInt (di_fw i));
        (n_engineVersion, JInt (di_engine i))].

(** encoding/json writes a map's members sorted by the text of their keys (address.go:78-80 [MarshalText]). *)
Fixpoint text_ltb (a b : list Z) : bool :=
  match a, b with
  | [], [] => false
  | [], _ => true
  | _ :: _, [] => false
  | x :: a', y :: b' => if x <? y then true else if y <? x then false else text_ltb a' b'
  end.
Fixpoint insert_sorted (kv : list Z * dinfo) (l : list (list Z * dinfo)) : list (list Z * dinfo) :=
  match l with
  | [] => [kv]
  | h :: t => if text_ltb (fst h) (fst kv) then h :: insert_sorted kv t else kv :: l
  end.
Definition sorted_members (m : dbmap) : list (list Z * dinfo) :=
  fold_right insert_sorted [] (map (fun kv => (addr_string (fst kv), snd kv)) m).
Definition map_json (m : dbmap) : json := JObj (map (fun kv => (fst kv, info_json (snd kv))) (sorted_members m)).

(** util/database.go:155-157 [MarshalJSON]; a nil map is written as null. *)
Definition db_marshal (db : memdb) : list Z :=
  match db_values db with None => jprint JNull | Some m => jprint (map_json m) end.

(** Errors of the decoder: 900 syntax, 901 wrong type, 902 DevCat text. *)
Definition EJsonSyntax : error := EOther 900.
Definition EJsonType : error := EOther 901.
Definition EDevCatScan : error := EOther 902.

(** encoding/json decode.go [saveError]: the first type error is remembered, decoding continues. *)
Definition save_error (saved : option error) : option error := match saved with None => Some EJsonType | _ => saved end.

(** Case folding of field names (encoding/json fold.go); two characters beyond ASCII fold to letters: the long s and the Kelvin sign. *)
Definition fold_char (c : Z) : Z := if (65 <=? c) && (c <=? 90) then c + 32 else if c =? 0x17f then 115 else if c =? 0x212a then 107 else c.
Definition fold_eqb (a b : list Z) : bool := bytes_eqb (map fold_char a) (map fold_char b).

(** Text handed to an UnmarshalJSON that decodes into a string: null leaves the string empty; anything but a string is an error. *)
Definition json_text (j : json) : option (list Z) :=
  match j with JStr s => Some s | JNull => Some [] | _ => None end.
(** A field of an integer type: null leaves it alone, anything but an integer in range is a remembered error. *)
Definition json_int (old : Z) (saved : option error) (j : json) : Z * option error :=
  match j with
  | JInt n => if (- 2 ^ 63 <=? n) && (n <? 2 ^ 63) then (n, saved) else (old, save_error saved)
  | JNull => (old, saved)
  | _ => (old, save_error saved)
  end.

(** Decoding of the members of an object into a DeviceInfo.  An error from UnmarshalJSON (address.go:88-94, insteon.go:111-121)
    stops the whole decoding ([inl]); other type errors are remembered.  Unknown names are skipped. *)
Fixpoint decode_fields (i : dinfo) (saved : option error) (l : list (list Z * json)) : error + (dinfo * option error) :=
  match l with
  | [] => inr (i, saved)
  | (k, j) :: t =>
      if fold_eqb k n_address then
        match json_text j with
        | None => inl EJsonType
        | Some s =>
            match addr_unmarshal_text (di_addr i) s with
            | (_, Some e) => inl e
            | (a, None) => decode_fields (mkDI a (di_dc0 i) (di_dc1 i) (di_fw i) (di_engine i)) saved t
            end
        end
      else if fold_eqb k n_devCat then
        match json_text j with
        | None => inl EJsonType
        | Some s =>
            match devcat_scan s with
            | None => inl EDevCatScan
            | Some (x, y) => decode_fields (mkDI (di_addr i) x y (di_fw i) (di_engine i)) saved t
            end
        end
      else if fold_eqb k n_firmwareVersion then
        match json_int (di_fw i) saved j with
        | (n, sv) => decode_fields (mkDI (di_addr i) (di_dc0 i) (di_dc1 i) n (di_engine i)) sv t
        end
      else if fold_eqb k n_engineVersion then
        match json_int (di_engine i) saved j with
        | (n, sv) => decode_fields (mkDI (di_addr i) (di_dc0 i) (di_dc1 i) (di_fw i) n) sv t
        end
      else decode_fields i saved t
  end.
(** Decoding of a value into a fresh DeviceInfo. *)
Definition decode_info (saved : option error) (j : json) : error + (dinfo * option error) :=
  match j with
  | JObj l => decode_fields dinfo_zero saved l
  | JNull => inr (dinfo_zero, saved)
  | _ => inr (dinfo_zero, save_error saved)
  end.
(** Decoding of the members of the outer object into the map: first the value, then the key, then the entry is stored. *)
Fixpoint decode_map (m : dbmap) (saved : option error) (l : list (list Z * json)) : dbmap * option error :=
  match l with
  | [] => (m, saved)
  | (k, j) :: t =>
      match decode_info saved j with
      | inl e => (m, Some e)
      | inr (i, sv) =>
          match addr_unmarshal_text 0 k with
          | (_, Some e) => (m, Some e)
          | (a, None) => decode_map (mset m a i) sv t
          end
      end
  end.

(** util/database.go:159-162 [UnmarshalJSON]: the map is replaced by an empty one first. *)
Definition db_unmarshal (db : memdb) (data : list Z) : memdb * option error :=
  match json_parse data with
  | None => (mkDB (Some []) (db_dirty db), Some EJsonSyntax)
  | Some JNull => (mkDB None (db_dirty db), None)
  | Some (JObj l) => match decode_map [] None l with (m, e) => (mkDB (Some m) (db_dirty db), e) end
  | Some _ => (mkDB (Some []) (db_dirty db), Some EJsonType)
  end.

(** util/database.go:132-138 [Load]: [content] is everything the reader gives, [rerr] its error other than end of file. *)
Definition db_load (db : memdb) (content : list Z) (rerr : option error) : memdb * option error :=
  match rerr with Some e => (db, Some e) | None => db_unmarshal db content end.

(** util/database.go:144-153 [Save] to a writer that answers [werr]; the text handed to it is [db_marshal db]. *)
Definition db_save (db : memdb) (werr : option error) : memdb * option error :=
  match werr with None => (mkDB (db_values db) false, None) | Some e => (db, Some e) end.

(** The named file: absent or its contents. *)
Definition fstate : Type := option (list Z).
(** What the operating system does with the file operations of one call: [os_open] is an error of opening, [os_write] the
    number of bytes written and the error of the write (nil exactly when all were written). *)
Record osresp : Type := mkOS { os_open : option error; os_write : nat * option error }.

(** util/database.go:185-198 [SaveDB] of a memDB: O_TRUNC empties the file before the one Write; the file is not closed. *)
Definition save_db (os : osresp) (f : fstate) (db : memdb) : fstate * memdb * option error :=
  if db_needs_saving db then
    match os_open os with
    | Some e => (f, db, Some e)
    | None =>
        match snd (os_write os) with
        | None => match db_save db None with (db1, e) => (Some (db_marshal db), db1, e) end
        | Some e => match db_save db (Some e) with (db1, e1) => (Some (firstn (fst (os_write os)) (db_marshal db)), db1, e1) end
        end
    end
  else (f, db, None).

(** The same call as the sequence of states the file goes through, one byte of the Write at a time (os/file.go, O_TRUNC
    then write): what a crash at some moment leaves. *)
Inductive fstep : Type := FTruncate | FAppend (b : Z).
Definition fstep_run (f : fstate) (s : fstep) : fstate :=
  match s with
  | FTruncate => Some []
  | FAppend b => match f with Some l => Some (l ++ [b]) | None => Some [b] end
  end.
Definition save_db_steps (db : memdb) : list fstep :=
  if db_needs_saving db then FTruncate :: map FAppend (db_marshal db) else [].
Definition crash_after (n : nat) (f : fstate) (db : memdb) : fstate := fold_left fstep_run (firstn n (save_db_steps db)) f.

(** util/database.go:203-215 [LoadDB] of a memDB; a missing file is an error of os.Open ([EIO 2]). *)
Definition load_db (f : fstate) (rerr : option error) (db : memdb) : memdb * option error :=
  match f with None => (db, Some (EIO 2)) | Some content => db_load db content rerr end.

(** util/database.go:76-83 [NewFileDB]. *)
Definition new_filedb (f : fstate) : memdb * option error := load_db f None new_memdb.

(** util/database.go:94-99 [fileDB.save]. *)
Definition filedb_save (os : osresp) (f : fstate) (db : memdb) (err : option error) : fstate * memdb * option error :=
  match err with
  | Some e => (f, db, Some e)
  | None => if db_dirty db then save_db os f db else (f, db, None)
  end.
(** util/database.go:120-122 [fileDB.Put]. *)
Definition filedb_put (os : osresp) (f : fstate) (db : memdb) (info : dinfo) : outcome (fstate * memdb * option error) :=
  match db_put db info with
  | Ret db1 => Ret (filedb_save os f db1 None)
  | Panic => Panic
  | NoFuel => NoFuel
  end.

(** devices/filters.go:5-13 [Filter] values over a common world. *)
Definition mfilter (W : Type) : Type := mwriter W -> mwriter W.
(** devices/device.go:168-170: filters are applied in order, the last one outermost. *)
Definition apply_filters {W} (filters : list (mfilter W)) (mw : mwriter W) : mwriter W :=
  fold_left (fun m f => f m) filters mw.
(** A *BasicDevice: its information and the message writer it talks through (devices/basic.go:40-54). *)
Record bdev (W : Type) : Type := mkBD { bd_info : dinfo; bd_writer : mwriter W }.
Arguments mkBD {W}. Arguments bd_info {W}. Arguments bd_writer {W}.

(** devices/device.go:167-182 [Open] with its filters. *)
Definition dev_open_filters {W} (fuel : nat) (mw : mwriter W) (dst : Z) (filters : list (mfilter W))
  : prog W (option (bdev W) * dinfo * option error) :=
  let mw1 := apply_filters filters mw in
  do (dev, info, err) <- dev_open fuel mw1 dst ;;
  pret (match dev with Some i => Some (mkBD i mw1) | None => None end, info, err).

(** util/database.go:169-179 [memDB.Open]. *)
Definition memdb_open {W} (fuel : nat) (db : memdb) (mw : mwriter W) (addr : Z) (filters : list (mfilter W))
  : prog W (option (bdev W) * memdb * option error) :=
  match db_get db addr with
  | (info, true) => pret (Some (mkBD info mw), db, None)
  | (_, false) =>
      do (dev, info, err) <- dev_open_filters fuel mw addr filters ;;
      match err with
      | Some e => pret (dev, db, Some e)
      | None => do db1 <- plift (db_put db info) ;; pret (dev, db1, None)
      end
  end.

(** util/database.go:85-92 [fileDB.Open]: the filters are not passed on. *)
Definition filedb_open {W} (fuel : nat) (os : osresp) (f : fstate) (db : memdb) (mw : mwriter W) (addr : Z) (filters : list (mfilter W))
  : prog W (option (bdev W) * (fstate * memdb) * option error) :=
  do (dev, db1, err) <- memdb_open fuel db mw addr [] ;;
  match filedb_save os f db1 err with (f1, db2, e) => pret (dev, (f1, db2), e) end.
