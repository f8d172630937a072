(** Model of the program in /repo/internal that writes devcats.go, commands/commands.go and COMMANDS.md.
    Texts are lists of Unicode code points.  The library functions it needs are modelled as far as they are used: the csv reader with
    its default settings, strconv.ParseInt with base 0, the escaping of html/template in ordinary text.  go/format is a parameter. *)
From Coq Require Import ZArith List Bool String.
From Verif Require Import GoBase GoText LinkText.
Import ListNotations.
Open Scope Z_scope.

(** For writing texts down: the code points of a text given as UTF-8 (up to three bytes a character). *)
Fixpoint udec (s : list Z) : list Z :=
  match s with
  | [] => []
  | c :: r =>
      if c <? 0x80 then c :: udec r
      else if c <? 0xe0 then match r with d :: r' => (c mod 32) * 64 + d mod 64 :: udec r' | [] => [] end
      else match r with d :: e :: r' => (c mod 16) * 4096 + (d mod 64) * 64 + e mod 64 :: udec r' | _ => [] end
  end.
Definition cps (s : string) : list Z := udec (zs s).
(** For writing texts down: each newline preceded by a carriage return. *)
Definition crlf (s : list Z) : list Z := flat_map (fun c => if c =? ch_nl then [ch_cr; ch_nl] else [c]) s.

(** ** encoding/csv *)

Definition ch_quote : Z := 34.
Definition ch_comma : Z := 44.
Definition ch_bom : Z := 0xfeff.

(** encoding/csv/reader.go [readLine]: a carriage return before a newline or before the end of the file is dropped. *)
Fixpoint csv_norm (s : list Z) : list Z :=
  match s with
  | [] => []
  | c :: r =>
      if (c =? ch_cr) && match r with [] => true | d :: _ => d =? ch_nl end then csv_norm r else c :: csv_norm r
  end.

Definition err_quote : error := EOther 90.
Definition err_bare_quote : error := EOther 91.
Definition err_field_count : error := EOther 92.

(** Where the reader is: before a record, at the start of a field, in a field without quotes, in a quoted field, after a quote in one. *)
Inductive csv_state := CRecord | CField | CPlain | CQuoted | CQuote.

(** encoding/csv/reader.go [readRecord], Comma ',', no comments, LazyQuotes and TrimLeadingSpace off: the records up to the first
    error, and the error.  [fld] is the field read so far and [rec] the fields before it, both backwards. *)
Fixpoint csv_go (st : csv_state) (fld : list Z) (rec : list (list Z)) (s : list Z) : list (list (list Z)) * option error :=
  let record := rev (rev fld :: rec) in
  match s with
  | [] =>
      match st with
      | CRecord => ([], None)
      | CQuoted => ([], Some err_quote)
      | _ => ([record], None)
      end
  | c :: r =>
      match st with
      | CQuoted => if c =? ch_quote then csv_go CQuote fld rec r else csv_go CQuoted (c :: fld) rec r
      | CRecord =>
          if c =? ch_nl then csv_go CRecord [] [] r
          else if c =? ch_quote then csv_go CQuoted [] [] r
          else if c =? ch_comma then csv_go CField [] [[]] r
          else csv_go CPlain [c] [] r
      | _ =>
          if c =? ch_comma then csv_go CField [] (rev fld :: rec) r
          else if c =? ch_nl then let '(rs, e) := csv_go CRecord [] [] r in (record :: rs, e)
          else if c =? ch_quote then
            match st with
            | CField => csv_go CQuoted [] rec r
            | CQuote => csv_go CQuoted (ch_quote :: fld) rec r
            | _ => ([], Some err_bare_quote)
            end
          else match st with CQuote => ([], Some err_quote) | _ => csv_go CPlain (c :: fld) rec r end
      end
  end.

(** encoding/csv/reader.go, FieldsPerRecord 0: the first record fixes the number of fields of the others. *)
Fixpoint csv_count (n : nat) (rs : list (list (list Z))) : list (list (list Z)) * option error :=
  match rs with
  | [] => ([], None)
  | r :: t => if Nat.eqb (List.length r) n then let '(ok, e) := csv_count n t in (r :: ok, e) else ([], Some err_field_count)
  end.

(** The records a reader of [s] gives one after another and the error it ends with, [None] the end of the file. *)
Definition csv_read (s : list Z) : list (list (list Z)) * option error :=
  let '(rs, e) := csv_go CRecord [] [] (csv_norm s) in
  match rs with
  | [] => ([], e)
  | r :: _ => let '(ok, e') := csv_count (List.length r) rs in (ok, match e' with Some _ => e' | None => e end)
  end.

(** ** strconv.ParseInt(s, 0, 64) *)

(** strconv/atoi.go [lower], of an ASCII letter. *)
Definition lower (c : Z) : Z := if (65 <=? c) && (c <=? 90) then c + 32 else c.

(** strconv/atoi.go, the digit [c] stands for. *)
Definition digit_of (c : Z) : option Z :=
  if (48 <=? c) && (c <=? 57) then Some (c - 48)
  else if (97 <=? lower c) && (lower c <=? 122) then Some (lower c - 97 + 10)
  else None.

(** strconv/atoi.go [ParseUint], the base a prefix gives, and what follows it. *)
Definition base_of (s : list Z) : Z * list Z :=
  match s with
  | 48 :: c :: d :: r =>
      if lower c =? 98 then (2, d :: r) else if lower c =? 111 then (8, d :: r) else if lower c =? 120 then (16, d :: r)
      else (8, c :: d :: r)
  | 48 :: r => (8, r)
  | _ => (10, s)
  end.

(** strconv/atoi.go [ParseUint], the loop; the values of more than 64 bits are refused at the end. *)
Fixpoint digits_val (base acc : Z) (s : list Z) : option Z :=
  match s with
  | [] => Some acc
  | c :: r =>
      if c =? 95 then digits_val base acc r
      else match digit_of c with
           | Some d => if d <? base then digits_val base (acc * base + d) r else None
           | None => None
           end
  end.

(** strconv/atoi.go [underscoreOK] of the digits after the prefix: [saw] says that a digit or a prefix precedes. *)
Fixpoint underscores_ok (saw : bool) (s : list Z) : bool :=
  match s with
  | [] => true
  | c :: r =>
      if c =? 95 then saw && match r with [] => false | _ => true end && underscores_ok false r else underscores_ok true r
  end.

(** strconv/atoi.go [ParseInt] with base 0 and 64 bits, as called by [parseHex], internal/devcats.go:93-99. *)
Definition parse_int0 (s : list Z) : option Z :=
  let '(neg, t) := match s with 43 :: t => (false, t) | 45 :: t => (true, t) | _ => (false, s) end in
  match t with
  | [] => None
  | _ =>
      let '(base, ds) := base_of t in
      if underscores_ok (negb (base =? 10)) ds then
        match digits_val base 0 ds with
        | None => None
        | Some n =>
            if neg then if n <=? 0x8000000000000000 then Some (- n) else None
            else if n <? 0x8000000000000000 then Some n else None
        end
      else None
  end.

(** ** internal/devcats.go *)

(** internal/devcats.go:54-79 [domains]: identifier and name of the constant of each domain. *)
Definition domains : list (Z * list Z) :=
  [ (0x00, zs "GeneralizeDomain")
  ; (0x01, zs "DimmerDomain")
  ; (0x02, zs "SwitchDomain")
  ; (0x03, zs "NetworkDomain")
  ; (0x04, zs "IrrigationDomain")
  ; (0x05, zs "ThermostatDomain")
  ; (0x06, zs "PoolSpaDomain")
  ; (0x07, zs "SensorActuatorDomain")
  ; (0x08, zs "HomeEntertainmentDomain")
  ; (0x09, zs "EnergyMgmtDomain")
  ; (0x0a, zs "ApplianceDomain")
  ; (0x0b, zs "PlumbingDomain")
  ; (0x0c, zs "CommunicationDomain")
  ; (0x0d, zs "ComputerDomain")
  ; (0x0e, zs "WindowCoveringsDomain")
  ; (0x0f, zs "AccessDomain")
  ; (0x10, zs "SecurityDomain")
  ; (0x11, zs "SurveillanceDomain")
  ; (0x12, zs "AutomotiveDomain")
  ; (0x13, zs "PetCareDomain")
  ; (0x14, zs "ToysDomain")
  ; (0x15, zs "TimekeepingDomain")
  ; (0x16, zs "HolidayDomain")
  ; (0xff, zs "UnassignedDomain") ].

(** The log.Fatal calls of internal/devcats.go. *)
Definition err_parse : error := EOther 93.
Definition err_domain : error := EOther 94.
Definition err_open_csv : error := EOther 95.

(** A row of the table: internal/devcats.go:27-33 [category] with the identifier of its domain; the fields SKU and Var are not used by
    the template. *)
Record category := mkCat { ct_domain : Z; ct_id : Z; ct_name : list Z }.

(** strings.Replace(s, "﻿", "", -1). *)
Definition drop_bom (s : list Z) : list Z := filter (fun c => negb (c =? ch_bom)) s.

(** internal/devcats.go:122-129, one record: [record[i]] of a shorter record panics. *)
Definition read_category (record : list (list Z)) : outcome (category + error) :=
  let! f0 := go_index record 0 in
  match parse_int0 (drop_bom f0) with
  | None => Ret (inr err_parse)
  | Some d =>
      let! f1 := go_index record 1 in
      match parse_int0 (drop_bom f1) with
      | None => Ret (inr err_parse)
      | Some c =>
          if existsb (fun x => fst x =? d) domains then
            let! _ := go_index record 2 in
            let! f3 := go_index record 3 in
            Ret (inl (mkCat d c (trim_space f3)))
          else Ret (inr err_domain)
      end
  end.

(** internal/devcats.go:112-130, the loop over the records. *)
Fixpoint read_categories (rs : list (list (list Z))) (e : option error) : outcome (list category + error) :=
  match rs with
  | [] => Ret (match e with Some e => inr e | None => inl [] end)
  | r :: t =>
      let! c := read_category r in
      match c with
      | inr e' => Ret (inr e')
      | inl c =>
          let! cs := read_categories t e in
          Ret (match cs with inl cs => inl (c :: cs) | inr e' => inr e' end)
      end
  end.

(** internal/devcats.go:100-132 [data]: [csv] is the file internal/devcats.csv, [None] when it cannot be opened.  The categories are
    kept in the order in which the template goes through them: domain after domain, the rows of a domain in the order of the file. *)
Definition devcats_data (csv : option (list Z)) : outcome (list category + error) :=
  match csv with
  | None => Ret (inr err_open_csv)
  | Some s =>
      let '(rs, e) := csv_read s in
      let! cs := read_categories rs e in
      Ret (match cs with
           | inl cs => inl (flat_map (fun d => filter (fun c => ct_domain c =? fst d) cs) domains)
           | inr e' => inr e'
           end)
  end.

(** ** The templates *)

(** html/template/html.go [htmlReplacementTable]: what {{.}} puts into ordinary text. *)
Definition html_char (c : Z) : list Z :=
  if c =? 0 then [0xfffd]
  else if c =? 34 then zs "&#34;"
  else if c =? 38 then zs "&amp;"
  else if c =? 39 then zs "&#39;"
  else if c =? 43 then zs "&#43;"
  else if c =? 60 then zs "&lt;"
  else if c =? 62 then zs "&gt;"
  else [c].
Definition html (s : list Z) : list Z := flat_map html_char s.

(** The hexadecimal digits of a number, at least one. *)
Fixpoint hex_digits (fuel : nat) (n : Z) (acc : list Z) : list Z :=
  match fuel with
  | O => acc
  | S f => let acc' := hex_char (n mod 16) :: acc in if n <? 16 then acc' else hex_digits f (n / 16) acc'
  end.
(** fmt.Sprintf("%02x") of an int: at least two characters, the sign being one of them. *)
Definition fmt_02x_int (n : Z) : list Z :=
  if n <? 0 then ch_minus :: hex_digits 17 (- n) []
  else if n <? 16 then 48 :: hex_digits 17 n [] else hex_digits 17 n [].

(** internal/license.tmpl; [year] is fmt.Sprintf("%4d", time.Now().Year()), main.go:61-62. *)
Definition license (year : list Z) : list Z :=
  zs "// Copyright " ++ html year ++ zs " " ++ html (zs "Andrew Bates") ++ zs "
// 
// Licensed under the Apache License, Version 2.0 (the ""License"");
// you may not use this file except in compliance with the License.
// You may obtain a copy of the License at
// 
// http://www.apache.org/licenses/LICENSE-2.0
// 
// Unless required by applicable law or agreed to in writing, software
// distributed under the License is distributed on an ""AS IS"" BASIS,
// WITHOUT WARRANTIES OR CONDITIONS OF ANY KIND, either express or implied.
// See the License for the specific language governing permissions and
// limitations under the License.
".

(** internal/devcats.go:50-52 [ID] of a domain. *)
Definition domain_id (d : Z) : list Z := zs "0x" ++ fmt_02x_int d.

(** internal/devcats.go:39-41 [DevCat]. *)
Definition cat_devcat (c : category) : list Z :=
  zs "{0x" ++ fmt_02x_int (ct_domain c) ++ zs ", 0x" ++ fmt_02x_int (ct_id c) ++ zs "}".

(** internal/devcats.go.tmpl:11-12, the entry of one category. *)
Definition devcat_entry (c : category) : list Z :=
  [ch_nl] ++ zs "  " ++ html (cat_devcat c) ++ zs ": """ ++ html (ct_name c) ++ zs """,".

(** internal/devcats.go.tmpl. *)
Definition devcats_go (year : list Z) (cs : list category) : list Z :=
  license year ++ zs "

package insteon

const(
  " ++ match domains with d :: _ => html (snd d) ++ zs " Domain = " ++ html (domain_id (fst d)) | [] => [] end ++ zs "
  " ++ flat_map (fun d => html (snd d) ++ zs " = " ++ html (domain_id (fst d)) ++ [ch_nl]) (tl domains) ++ zs "
)

var devcatStrings = map[DevCat]string { " ++ flat_map devcat_entry cs ++ zs "
}
".

(** ** internal/commands.go *)

(** internal/commands.go:17-24 [command]. *)
Record cmd := mkCmd { cm_name : list Z; cm_comment : list Z; cm_string : list Z; cm_b1 : Z; cm_b2 : Z; cm_notes : list Z }.
(** internal/commands.go:26-31 [commandGroup]. *)
Record cmd_group := mkGroup { cg_name : list Z; cg_b0 : Z; cg_convenience : bool; cg_commands : list cmd }.

(** internal/commands.go.tmpl:8-10, the constant of one command. *)
Definition cmd_const (b0 : Z) (c : cmd) : list Z :=
  [ch_nl] ++ zs "// " ++ html (cm_name c) ++ zs " " ++ html (cm_comment c) ++ [ch_nl]
  ++ html (cm_name c) ++ zs " = Command(0x" ++ html (fmt_02x b0) ++ html (fmt_02x (cm_b1 c)) ++ html (fmt_02x (cm_b2 c))
  ++ zs ") // " ++ html (cm_string c) ++ [ch_nl].

(** internal/commands.go.tmpl:5-12, the constants of one group. *)
Definition group_consts (g : cmd_group) : list Z :=
  [ch_nl] ++ zs "// " ++ html (cg_name g) ++ [ch_nl] ++ zs "const(" ++ flat_map (cmd_const (cg_b0 g)) (cg_commands g) ++ zs ")" ++ [ch_nl].

(** internal/commands.go.tmpl:14-15, the entry of one command. *)
Definition cmd_entry (c : cmd) : list Z :=
  [ch_nl] ++ zs "  " ++ html (cm_name c) ++ zs ": """ ++ html (cm_string c) ++ zs """,".

(** internal/commands.go.tmpl. *)
Definition commands_go (year : list Z) (gs : list cmd_group) : list Z :=
  license year ++ zs "

package commands

" ++ flat_map group_consts gs ++ zs "

var cmdStrings = map[Command]string { " ++ flat_map (fun g => flat_map cmd_entry (cg_commands g)) gs ++ zs "
}
".

(** internal/COMMANDS.md.tmpl:11-12, the line of one command. *)
Definition md_row (c : cmd) : list Z :=
  [ch_nl] ++ html (zs "0x" ++ fmt_02x (cm_b1 c)) ++ zs "|" ++ html (zs "0x" ++ fmt_02x (cm_b2 c)) ++ zs "|" ++ html (cm_string c)
  ++ zs "|" ++ html (cm_notes c).

(** internal/COMMANDS.md.tmpl:6-14, the table of one group. *)
Definition md_group (g : cmd_group) : list Z :=
  if cg_convenience g then []
  else [ch_nl; ch_nl] ++ zs "## " ++ html (cg_name g) ++ [ch_nl] ++ zs "Command 1 | Command 2 | Name | Notes" ++ [ch_nl]
       ++ zs "----------|-----------|------|------" ++ flat_map md_row (cg_commands g).

(** internal/COMMANDS.md.tmpl. *)
Definition commands_md_text (gs : list cmd_group) : list Z :=
  zs "
# Known Insteon Commands

The following tables outline all the Insteon command combinations that are
known in this project." ++ flat_map md_group gs ++ [ch_nl; ch_nl].

(** internal/commands.go:33-192 [commands]. *)
Definition command_groups : list cmd_group :=
  [ mkGroup (zs "Standard Direct Commands") 0x00 false
    [ mkCmd (zs "AssignToAllLinkGroup") (zs "Assign to ALL-Link Group") (zs "Assign to All-Link Group") 0x01 0x00 (zs "")
    ; mkCmd (zs "DeleteFromAllLinkGroup") (zs "Delete from All-Link Group") (zs "Delete from All-Link Group") 0x02 0x00 (zs "")
    ; mkCmd (zs "ProductDataReq") (zs "Product Data Request") (zs "Product Data Request") 0x03 0x00 (zs "")
    ; mkCmd (zs "FxUsernameReq") (zs "FX Username Request") (zs "Fx Username Request") 0x03 0x01 (zs "")
    ; mkCmd (zs "DeviceTextStringReq") (zs "Device Text String Request") (zs "Text String Request") 0x03 0x02 (zs "")
    ; mkCmd (zs "ExitLinkingMode") (zs "Exit Linking Mode") (zs "Exit Linking Mode") 0x08 0x00 (zs "")
    ; mkCmd (zs "EnterLinkingMode") (zs "Enter Linking Mode") (zs "Enter Linking Mode") 0x09 0x00 (zs "")
    ; mkCmd (zs "EnterUnlinkingMode") (zs "Enter Unlinking Mode") (zs "Enter Unlinking Mode") 0x0a 0x00 (zs "")
    ; mkCmd (zs "GetEngineVersion") (zs "Get Insteon Engine Version") (zs "Engine Version") 0x0d 0x00 (zs "")
    ; mkCmd (zs "Ping") (zs "Ping Request") (zs "Ping Request") 0x0f 0x00 (zs "")
    ; mkCmd (zs "IDRequest") (zs "Send ID Request which will prompt the device to respond with a Set Button Pressed Controller/Responder") (zs "ID Request") 0x10 0x00 (zs "")
    ; mkCmd (zs "GetOperatingFlags") (zs "is used to request a given operating flag") (zs "Get Operating Flags") 0x1f 0x00 (zs "") ]
  ; mkGroup (zs "Extended Direct Commands") 0x01 false
    [ mkCmd (zs "ProductDataResp") (zs "Product Data Response") (zs "Product Data Response") 0x03 0x00 (zs "")
    ; mkCmd (zs "FxUsernameResp") (zs "FX Username Response") (zs "Fx Username Response") 0x03 0x01 (zs "")
    ; mkCmd (zs "DeviceTextStringResp") (zs "Device Text String Response") (zs "Text String Response") 0x03 0x02 (zs "")
    ; mkCmd (zs "SetDeviceTextString") (zs "sets the device text string") (zs "Set Text String") 0x03 0x03 (zs "")
    ; mkCmd (zs "SetAllLinkCommandAlias") (zs "sets the command alias to use for all-linking") (zs "Set All-Link Command Alias") 0x03 0x04 (zs "")
    ; mkCmd (zs "SetAllLinkCommandAliasData") (zs "sets the extended data to be used if the command alias is an extended command") (zs "Set All-Link Command Alias Data") 0x03 0x05 (zs "")
    ; mkCmd (zs "ExitLinkingModeExt") (zs "Exit Linking Mode") (zs "Exit Linking Mode (i2cs)") 0x08 0x00 (zs "Insteon version 2 with checksum devices only respond to extended linking commands")
    ; mkCmd (zs "EnterLinkingModeExt") (zs "Enter Linking Mode (extended command for I2CS devices)") (zs "Enter Linking Mode (i2cs)") 0x09 0x00 (zs "Insteon version 2 with checksum devices only respond to extended linking commands")
    ; mkCmd (zs "EnterUnlinkingModeExt") (zs "Enter Unlinking Mode (extended command for I2CS devices)") (zs "Enter Unlinking Mode (i2cs)") 0x0a 0x00 (zs "Insteon version 2 with checksum devices only respond to extended linking commands")
    ; mkCmd (zs "SetOperatingFlags") (zs "is used to set a given operating flag") (zs "Set Operating Flags") 0x20 0x00 (zs "")
    ; mkCmd (zs "ExtendedGetSet") (zs "is used to get and set extended data (ha ha)") (zs "Extended Get/Set") 0x2e 0x00 (zs "")
    ; mkCmd (zs "ReadWriteALDB") (zs "Read/Write ALDB") (zs "Read/Write ALDB") 0x2f 0x00 (zs "") ]
  ; mkGroup (zs "All-Link Messages") 0x0c false
    [ mkCmd (zs "AllLinkSuccessReport") (zs "is an all-link command to report the number of failed cleanups") (zs "All-link Success Report") 0x06 0x00 (zs "")
    ; mkCmd (zs "AllLinkRecall") (zs "is an all-link command to recall the state assigned to the entry in the all-link database") (zs "All-link recall") 0x11 0x00 (zs "")
    ; mkCmd (zs "AllLinkAlias2High") (zs "will execute substitute Direct Command") (zs "All-link Alias 2 High") 0x12 0x00 (zs "")
    ; mkCmd (zs "AllLinkAlias1Low") (zs "will execute substitute Direct Command") (zs "All-link Alias 1 Low") 0x13 0x00 (zs "")
    ; mkCmd (zs "AllLinkAlias2Low") (zs "will execute substitute Direct Command") (zs "All-link Alias 2 Low") 0x14 0x00 (zs "")
    ; mkCmd (zs "AllLinkAlias3High") (zs "will execute substitute Direct Command") (zs "All-link Alias 3 High") 0x15 0x00 (zs "")
    ; mkCmd (zs "AllLinkAlias3Low") (zs "will execute substitute Direct Command") (zs "All-link Alias 3 Low") 0x16 0x00 (zs "")
    ; mkCmd (zs "AllLinkAlias4High") (zs "will execute substitute Direct Command") (zs "All-link Alias 4 High") 0x17 0x00 (zs "")
    ; mkCmd (zs "AllLinkAlias4Low") (zs "will execute substitute Direct Command") (zs "All-link Alias 4 Low") 0x18 0x00 (zs "")
    ; mkCmd (zs "AllLinkAlias5") (zs "will execute substitute Direct Command") (zs "All-link Alias 5") 0x21 0x00 (zs "") ]
  ; mkGroup (zs "Standard Broadcast Messages") 0x08 false
    [ mkCmd (zs "SetButtonPressedResponder") (zs "Broadcast command indicating the set button has been pressed") (zs "Set-button Pressed (responder)") 0x01 0x00 (zs "")
    ; mkCmd (zs "SetButtonPressedController") (zs "Broadcast command indicating the set button has been pressed") (zs "Set-button Pressed (controller)") 0x02 0x00 (zs "")
    ; mkCmd (zs "TestPowerlinePhase") (zs "is used for determining which powerline phase (A/B) to which the device is attached") (zs "Test Powerline Phase") 0x03 0x00 (zs "")
    ; mkCmd (zs "Heartbeat") (zs "is a broadcast command that is received periodically if it has been set up using the extended get/set command") (zs "Heartbeat") 0x04 0x00 (zs "")
    ; mkCmd (zs "BroadCastStatusChange") (zs "is sent by a device when its status changes") (zs "Broadcast Status Change") 0x27 0x00 (zs "") ]
  ; mkGroup (zs "Lighting Standard Direct Messages") 0x00 false
    [ mkCmd (zs "LightOn") (zs "") (zs "Light On") 0x11 0x00 (zs "")
    ; mkCmd (zs "LightOnFast") (zs "") (zs "Light On Fast") 0x12 0x00 (zs "")
    ; mkCmd (zs "LightOff") (zs "") (zs "Light Off") 0x13 0x00 (zs "")
    ; mkCmd (zs "LightOffFast") (zs "") (zs "Light Off Fast") 0x14 0x00 (zs "")
    ; mkCmd (zs "LightBrighten") (zs "") (zs "Brighten Light") 0x15 0x00 (zs "")
    ; mkCmd (zs "LightDim") (zs "") (zs "Dim Light") 0x16 0x00 (zs "")
    ; mkCmd (zs "LightStopManual") (zs "") (zs "Manual Light Change Stop") 0x18 0x00 (zs "")
    ; mkCmd (zs "LightStatusRequest") (zs "") (zs "Status Request") 0x19 0x00 (zs "")
    ; mkCmd (zs "LightInstantChange") (zs "") (zs "Light Instant Change") 0x21 0x00 (zs "")
    ; mkCmd (zs "LightManualOn") (zs "") (zs "Manual On") 0x22 0x01 (zs "")
    ; mkCmd (zs "LightManualOff") (zs "") (zs "Manual Off") 0x23 0x01 (zs "")
    ; mkCmd (zs "TapSetButtonOnce") (zs "") (zs "Set Button Tap") 0x25 0x01 (zs "")
    ; mkCmd (zs "TapSetButtonTwice") (zs "") (zs "Set Button Tap Twice") 0x25 0x02 (zs "")
    ; mkCmd (zs "LightSetStatus") (zs "") (zs "Set Status") 0x27 0x00 (zs "")
    ; mkCmd (zs "LightOnAtRamp") (zs "") (zs "Light On At Ramp") 0x2e 0x00 (zs "This command is for dimmers with firmware version less than version 67")
    ; mkCmd (zs "LightOnAtRampV67") (zs "") (zs "Light On At Ramp") 0x34 0x00 (zs "Dimmers running firmware version 67 and higher")
    ; mkCmd (zs "LightOffAtRamp") (zs "") (zs "Light Off At Ramp") 0x2f 0x00 (zs "")
    ; mkCmd (zs "LightOffAtRampV67") (zs "") (zs "Light Off At Ramp") 0x35 0x00 (zs "") ]
  ; mkGroup (zs "Dimmer Convenience Commands") 0x00 true
    [ mkCmd (zs "StartBrighten") (zs "") (zs "Manual Start Brighten") 0x17 0x01 (zs "")
    ; mkCmd (zs "StartDim") (zs "") (zs "Manual Start Dim") 0x17 0x00 (zs "")
    ; mkCmd (zs "EnableProgramLock") (zs "") (zs "Enable Program Lock") 0x20 0x00 (zs "")
    ; mkCmd (zs "DisableProgramLock") (zs "") (zs "Disable Program Lock") 0x20 0x01 (zs "")
    ; mkCmd (zs "EnableTxLED") (zs "") (zs "Enable Tx LED") 0x20 0x02 (zs "")
    ; mkCmd (zs "DisableTxLED") (zs "") (zs "Disable Tx LED") 0x20 0x03 (zs "")
    ; mkCmd (zs "EnableResumeDim") (zs "") (zs "Enable Resume Dim") 0x20 0x04 (zs "")
    ; mkCmd (zs "DisableResumeDim") (zs "") (zs "Disable Resume Dim") 0x20 0x05 (zs "")
    ; mkCmd (zs "EnableLoadSense") (zs "") (zs "Enable Load Sense") 0x20 0x06 (zs "")
    ; mkCmd (zs "DisableLoadSense") (zs "") (zs "Disable Load Sense") 0x20 0x07 (zs "")
    ; mkCmd (zs "DisableLED") (zs "") (zs "Disable Backlight") 0x20 0x08 (zs "")
    ; mkCmd (zs "EnableLED") (zs "") (zs "Enable Backlight") 0x20 0x09 (zs "")
    ; mkCmd (zs "SetKeyBeep") (zs "") (zs "Enable Key Beep") 0x20 0x0a (zs "")
    ; mkCmd (zs "ClearKeyBeep") (zs "") (zs "Disable Key Beep") 0x20 0x0b (zs "") ]
  ; mkGroup (zs "Thermostat Standard Direct Messages") 0x00 false
    [ mkCmd (zs "DecreaseTemp") (zs "Decrease Temperature") (zs "Decrease Temp") 0x68 0x00 (zs "")
    ; mkCmd (zs "IncreaseTemp") (zs "Increase Temperature") (zs "Increase Temp") 0x69 0x00 (zs "")
    ; mkCmd (zs "GetZoneInfo") (zs "Get Zone Information") (zs "Get Zone Info") 0x6a 0x00 (zs "")
    ; mkCmd (zs "GetThermostatMode") (zs "Get Mode") (zs "Get Mode") 0x6b 0x02 (zs "")
    ; mkCmd (zs "GetAmbientTemp") (zs "Get Ambient Temperature") (zs "Get Ambient Temp") 0x6b 0x03 (zs "")
    ; mkCmd (zs "SetHeat") (zs "Set Heat") (zs "Set Heat") 0x6b 0x04 (zs "")
    ; mkCmd (zs "SetCool") (zs "Set Cool") (zs "Set Cool") 0x6b 0x05 (zs "")
    ; mkCmd (zs "SetModeAuto") (zs "Set Mode Auto") (zs "Set Auto") 0x6b 0x06 (zs "")
    ; mkCmd (zs "SetFan") (zs "Turn Fan On") (zs "Turn Fan On") 0x6b 0x07 (zs "")
    ; mkCmd (zs "ClearFan") (zs "Turn Fan Off") (zs "Turn Fan Off") 0x6b 0x08 (zs "")
    ; mkCmd (zs "ThermOff") (zs "Turn Thermostat Off") (zs "Turn Thermostat Off") 0x6b 0x09 (zs "")
    ; mkCmd (zs "SetProgramHeat") (zs "Set mode to Program Heat") (zs "Set Program Heat") 0x6b 0x0a (zs "")
    ; mkCmd (zs "SetProgramCool") (zs "Set mode to Program Cool") (zs "Set Program Cool") 0x6b 0x0b (zs "")
    ; mkCmd (zs "SetProgramAuto") (zs "Set mode to Program Auto") (zs "Set Program Auto") 0x6b 0x0c (zs "")
    ; mkCmd (zs "GetEquipmentState") (zs "Get Equipment State") (zs "Get State") 0x6b 0x0d (zs "")
    ; mkCmd (zs "SetEquipmentState") (zs "Set Equipment State") (zs "Set State") 0x6b 0x0e (zs "")
    ; mkCmd (zs "GetTempUnits") (zs "Get Temperature Units") (zs "Get Temp Units") 0x6b 0x0f (zs "")
    ; mkCmd (zs "SetFahrenheit") (zs "Set Units to Fahrenheit") (zs "Set Units Fahrenheit") 0x6b 0x10 (zs "")
    ; mkCmd (zs "SetCelsius") (zs "Set Units to Celsius") (zs "Set Units Celsius") 0x6b 0x11 (zs "")
    ; mkCmd (zs "GetFanOnSpeed") (zs "Get Fan On-Speed") (zs "Get Fan On-Speed") 0x6b 0x12 (zs "")
    ; mkCmd (zs "SetFanOnLow") (zs "Set Fan On-Speed to Low") (zs "Set Fan-Speed Low") 0x6b 0x13 (zs "")
    ; mkCmd (zs "SetFanOnMed") (zs "Set Fan On-Speed to Med") (zs "Set Fan-Speed Med") 0x6b 0x14 (zs "")
    ; mkCmd (zs "SetFanOnHigh") (zs "Set Fan On-Speed to High") (zs "Set Fan-Speed High") 0x6b 0x15 (zs "")
    ; mkCmd (zs "EnableStatusMessage") (zs "Enable Status Change Messages") (zs "Enable Status Change") 0x6b 0x16 (zs "")
    ; mkCmd (zs "DisableStatusMessage") (zs "Disable Status Change Messages") (zs "Disable Status Change") 0x6b 0x17 (zs "")
    ; mkCmd (zs "SetCoolSetpoint") (zs "Set Cool Set-Point") (zs "Set Cool Set-Point") 0x6c 0x00 (zs "")
    ; mkCmd (zs "SetHeatSetpoint") (zs "Set Heat Set-Point") (zs "Set Heat Set-Point") 0x6d 0x00 (zs "") ]
  ; mkGroup (zs "Thermostat Extended Direct Messages") 0x01 false
    [ mkCmd (zs "ZoneTempUp") (zs "Increase Zone Temp") (zs "Increase Zone Temp") 0x68 0x00 (zs "")
    ; mkCmd (zs "ZoneTempDown") (zs "Decrease Zone Temp") (zs "Decrease Zone Temp") 0x69 0x00 (zs "")
    ; mkCmd (zs "SetZoneCoolSetpoint") (zs "Set Zone Cooling Set Point") (zs "Set Zone Cool Set-Point") 0x6c 0x00 (zs "")
    ; mkCmd (zs "SetZoneHeatSetpoint") (zs "Set Zone Heating Set Point") (zs "Set Zone Heat Set-Point") 0x6d 0x00 (zs "") ] ].

(** ** internal/main.go *)

(** One line of the table [autogenCommands], internal/main.go:29-33: the output file and the text the template gives for the data. *)
Record template := mkTmpl { tm_output : list Z; tm_text : outcome (list Z + error) }.

(** internal/devcats.go:81-91 and internal/commands.go:193-209, the two [init] functions. *)
Definition autogen_commands (year : list Z) (csv : option (list Z)) : list (list Z * list template) :=
  [ (zs "devcats",
      [ mkTmpl (zs "devcats.go")
          (let! d := devcats_data csv in Ret (match d with inl cs => inl (devcats_go year cs) | inr e => inr e end)) ])
  ; (zs "commands",
      [ mkTmpl (zs "commands/commands.go") (Ret (inl (commands_go year command_groups)))
      ; mkTmpl (zs "COMMANDS.md") (Ret (inl (commands_md_text command_groups))) ]) ].

(** The files: the text of a name, [None] when there is none. *)
Definition files := list Z -> option (list Z).
Definition put (fs : files) (name text : list Z) : files := fun n => if bytes_eqb n name then Some text else fs n.

(** What the operating system does with one output file: the error of os.Create, and how many characters a Write takes. *)
Record os_file := mkOsFile { of_create : option error; of_written : option nat }.
Definition taken (o : os_file) (text : list Z) : list Z := match of_written o with None => text | Some n => firstn n text end.

(** strings.HasSuffix(name, ".go"). *)
Definition is_go (name : list Z) : bool := bytes_eqb (skipn (List.length name - 3) name) (zs ".go").

Definition err_format : error := EOther 96.
Definition err_usage : error := EOther 97.
Definition err_unknown : error := EOther 98.

(** internal/main.go:51-85, the loop over the templates; [fmts] is go/format.Source, [os] what happens to each output file.  The
    results of Write are not looked at. *)
Fixpoint generate (fmts : list Z -> option (list Z)) (os : list Z -> os_file) (ts : list template) (fs : files)
  : outcome (option error) * files :=
  match ts with
  | [] => (Ret None, fs)
  | t :: rest =>
      match tm_text t with
      | Panic => (Panic, fs)
      | NoFuel => (NoFuel, fs)
      | Ret (inr e) => (Ret (Some e), fs)
      | Ret (inl text) =>
          let o := os (tm_output t) in
          match of_create o with
          | Some e => (Ret (Some e), fs)
          | None =>
              if is_go (tm_output t) then
                match fmts text with
                | None => (Ret (Some err_format), put fs (tm_output t) (taken o text))
                | Some b => generate fmts os rest (put fs (tm_output t) (taken o b))
                end
              else generate fmts os rest (put fs (tm_output t) (taken o text))
          end
      end
  end.

(** internal/main.go:41-86 [main]: [args] are the arguments after the name of the program; [None] is exit status 0. *)
Definition autogen (fmts : list Z -> option (list Z)) (os : list Z -> os_file) (year : list Z) (csv : option (list Z))
  (args : list (list Z)) (fs : files) : outcome (option error) * files :=
  match args with
  | [] => (Ret (Some err_usage), fs)
  | a :: _ =>
      match find (fun c => bytes_eqb (fst c) a) (autogen_commands year csv) with
      | None => (Ret (Some err_unknown), fs)
      | Some c => generate fmts os (snd c) fs
      end
  end.
