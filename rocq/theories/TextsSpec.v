(** What the texts of the library and the tools must look like: which words stand where, and which value stands under which word.  A layout is
    a list of pieces; it does not mention how the program makes the text. *)
From Coq Require Import ZArith List Bool String.
From Verif Require Import GoBase GoText Message MessageSpec Link LinkText PlmPacket Plm DevLinkdb BasicDevice Lights Thermostat Display DisplaySpec IcDev IcDevSpec SnoopTextSpec.
Import ListNotations.
Open Scope string_scope.
Open Scope list_scope.
Open Scope Z_scope.

(** ** Layouts *)
(** Words; a byte in two hexadecimal digits; a number in decimal; a byte in decimal, set to the right of [w] columns; an address; the end of a
    line; text given as it is. *)
Inductive item : Type := L (s : string) | H (b : Z) | D (n : Z) | R (w : nat) (n : Z) | A (a : Z) | NL | T (t : list Z).
Definition number (t : list Z) (n : Z) : Prop := 0 <= n /\ decimal t n \/ n < 0 /\ exists u, t = zs "-" ++ u /\ decimal u (- n).
Inductive says : list item -> list Z -> Prop :=
| Y0 : says [] []
| YL : forall s r t, says r t -> says (L s :: r) (zs s ++ t)
| YH : forall b x r t, hex2 x b -> says r t -> says (H b :: r) (x ++ t)
| YD : forall n x r t, number x n -> says r t -> says (D n :: r) (x ++ t)
| YR : forall w n x r t, decimal x n -> says r t -> says (R w n :: r) (repeat 32 (w - List.length x) ++ x ++ t)
| YA : forall a x r t, dotted x a -> says r t -> says (A a :: r) (x ++ t)
| YN : forall r t, says r t -> says (NL :: r) (10 :: t)
| YT : forall x r t, says r t -> says (T x :: r) (x ++ t).
Definition lines (ls : list (list item)) : list item := flat_map (fun l => l ++ [NL]) ls.

(** Bit [n] of a number. *)
Definition on (n x : Z) : bool := (x / 2 ^ n) mod 2 =? 1.
Definition truth (b : bool) : item := L (if b then "true" else "false").

(** ** Commands and messages *)
(** A command of the table has its name; one that differs from a command of the table only in the last byte, for which the command of the table
    has zero, has that name and the byte; any other has its three bytes. *)
Definition command_says (r : list item) (c : Z) : Prop :=
  (exists n, In (c, n) cmd_strings /\ r = [T n]) \/
  (~ In c (map fst cmd_strings) /\ exists n, In (c / 256 * 256, n) cmd_strings /\ r = [T n; L "("; D (c mod 256); L ")"]) \/
  (~ In c (map fst cmd_strings) /\ ~ In (c / 256 * 256) (map fst cmd_strings) /\
   r = [L "Command(0x"; H (c / 65536); L ", 0x"; H (c / 256 mod 256); L ", 0x"; H (c mod 256); L ")"]).
Definition kind_word (k : kind) : string :=
  match k with
  | KDirect => "D    " | KDirectAck => "D Ack" | KCleanup => "C    " | KCleanupAck => "C Ack"
  | KBroadcast => "B    " | KDirectNak => "D NAK" | KAllLink => "A    " | KCleanupNak => "C NAK"
  end.
Definition target (k : kind) (dst : Z) : list item :=
  match k with
  | KAllLink => [L "ff.ff.ff"]
  | KBroadcast => [L "ff.ff.ff DevCat "; H (dst / 65536); L "."; H (dst / 256 mod 256); L " Firmware "; D (dst mod 256)]
  | KCleanup => [A dst; L " Cleanup"]
  | _ => [A dst]
  end.
Fixpoint spaced (l : list Z) : list item := match l with [] => [] | [b] => [H b] | b :: t => H b :: L " " :: spaced t end.
Definition message_says (m : message) (r : list item) : Prop :=
  exists k ext left max c, flags_layout (m_flags m) k ext left max /\
    (if is_ack_kind k then c = [D (m_cmd m / 256 mod 256); L "."; D (m_cmd m mod 256)] else command_says c (m_cmd m)) /\
    r = [L (if ext then "E" else "S"); L (kind_word k); L " "; D max; L ":"; D left; L " "; A (m_src m); L " -> "] ++ target k (m_dst m) ++ [L " "] ++ c ++
        (match k with KAllLink => [L " Group("; D (m_dst m mod 256); L ")"] | _ => [] end) ++
        (if ext then [L " ["] ++ spaced (m_payload m) ++ [L "]"] else []).

(** ** Packets and settings of the modem *)
Definition packet_name (c : Z) (r : list item) : Prop :=
  (exists n, In (c, n) modem_names /\ r = [L n]) \/ ((forall n, ~ In (c, n) modem_names) /\ r = [L "Command("; D c; L ")"]).
Definition ending_word (e : ending) : list item := match e with Acked => [L " ACK"] | Refused => [L " NAK"] | Neither => [] end.
Definition each_after_blank (l : list Z) : list item := flat_map (fun b => [L " "; H b]) l.
Definition config_items (c : Z) : list item :=
  [L (if on 7 c then "L" else "."); L (if on 6 c then "M" else "."); L (if on 5 c then "A" else "."); L (if on 4 c then "D" else ".")].
Definition modem_items (i : info) : list item := [A (i_addr i); L " category "; H (i_dc0 i); L "."; H (i_dc1 i); L " version "; D (i_fw i)].

(** ** Records *)
Definition use_word (f : Z) : string := if on 7 f then (if on 6 f then "UC" else "UR") else (if on 6 f then "AC" else "AR").
Definition record_items (l : link) : list item :=
  [L (use_word (l_flags l)); L " "; D (l_group l); L " "; A (l_addr l); L " 0x"; H (l_d0 l); L " 0x"; H (l_d1 l); L " 0x"; H (l_d2 l)].
Definition request_word (t : Z) : string := match t with 0 => "Link Read" | 1 => "Link Resp" | 2 => "Link Write" | _ => "Unknown" end.
Definition request_items (r : linkreq) : list item :=
  [L (request_word (lr_type r)); L " "; H (lr_mem r / 256); L "."; H (lr_mem r mod 256); L " "; D (lr_num r)] ++
  match lr_link r with None => [] | Some l => L " " :: record_items l end.
(** A line of a listing, and of the text the editor gets. *)
Definition row (l : link) : list item :=
  [L (use_word (l_flags l)); L "   "; L " "; R 5 (l_group l); L " "; A (l_addr l); L "   "; H (l_d0 l); L " "; H (l_d1 l); L " "; H (l_d2 l)].
Definition listing (ls : list link) : list item :=
  lines ([L "Link Database:"] ::
         match ls with [] => [[L "    No links defined"]] | _ => [L "    Flags Group Address    Data"] :: map (fun l => L "    " :: row l) ls end).
Definition edited (heading : bool) (ls : list link) : list item :=
  lines ((if heading then
            map (fun s => [L s])
              ["#"; "# Lines beginning with a # are ignored"; "# DO NOT delete lines, this will cause the entries to";
               "# shift up and then the last entry will be in the database twice";
               "# To delete a record simply mark it 'Available' by changing the"; "# first letter of the Flags to 'A'"; "#"; "# Flags Group Address    Data"]
          else []) ++ map row ls).
Definition dumped (ls : list link) : list item :=
  lines match ls with
        | [] => [[L "no links"]]
        | _ => [L "links"] ::
               map (fun l => [L "- ["; L "0x"; H (l_flags l); L ", "; L "0x"; H (l_group l); L ", "; L "0x"; H (l_addr l / 65536); L ", "; L "0x"; H (l_addr l / 256 mod 256); L ", "; L "0x"; H (l_addr l mod 256);
                              L ", "; L "0x"; H (l_d0 l); L ", "; L "0x"; H (l_d1 l); L ", "; L "0x"; H (l_d2 l); L "]"]) ls
        end.

(** ** Devices *)
Definition engine_word (e : Z) : string := match e with 0 => "I1" | 1 => "I2" | 2 => "I2Cs" | _ => "unknown" end.
(** A thermostat shows the address 0, of which C62 speaks. *)
Definition device_name (i : dinfo) (r : list item) : Prop :=
  (a_dimmer i /\ r = [L "Dimmer ("; A (di_addr i); L ")"]) \/
  (di_dc0 i = 2 /\ r = [L "Switch ("; A (di_addr i); L ")"]) \/
  (a_thermostat i /\ r = [L "Thermostat (00.00.00)"]) \/
  (di_dc0 i <> 1 /\ di_dc0 i <> 2 /\ di_dc0 i <> 5 /\ r = [L (engine_word (di_engine i)); L " Device ("; A (di_addr i); L ")"]).
Definition info_lines (name : list item) (i : dinfo) : list (list item) :=
  [ L "       Device: " :: name;
    [L "       Engine: "; L (engine_word (di_engine i))];
    [L "     Category: "; H (di_dc0 i); L "."; H (di_dc1 i)];
    [L "     Firmware: "; D (di_fw i)] ].
Definition dimmer_lines (c : dimcfg) : list (list item) :=
  [ [L "           X10 Address: "; H (dc_house c); L "."; H (dc_unit c)];
    [L "          Default Ramp: "; D (dc_ramp c)];
    [L "         Default Level: "; D (dc_level c)];
    [L "                   SNR: "; D (dc_snt c)] ].
(** The five bytes of the operating flags. *)
Definition flag_lines (f : list Z) : list (list item) :=
  let b i := nth i f 0 in
  [ [L "          Program Lock: "; truth (on 0 (b 0%nat))];
    [L "             LED on Tx: "; truth (on 1 (b 0%nat))];
    [L "            Resume Dim: "; truth (on 2 (b 0%nat))];
    [L "                LED On: "; truth (on 4 (b 3%nat))];
    [L "         Load Sense On: "; truth (on 5 (b 4%nat))];
    [L "              DB Delta: "; D (b 1%nat)];
    [L "                   SNR: "; D (b 2%nat)];
    [L "           X10 Enabled: "; truth (negb (on 0 (b 4%nat)))];
    [L "        Blink on Error: "; truth (on 1 (b 4%nat))];
    [L "Cleanup Report Enabled: "; truth (on 2 (b 4%nat))] ].
Fixpoint commas (l : list string) : list item := match l with [] => [] | [s] => [L s] | s :: t => L s :: L "," :: commas t end.
Definition state_items (s : Z) : list item :=
  commas ((if on 0 s then ["cooling"] else []) ++ (if on 1 s then ["heating"] else []) ++
          (if on 2 s then ["programmable output available"] else []) ++ (if on 3 s then ["programmable output state"] else [])).
Definition unit_item (u : Z) : list item := match u with 0 => [T [194; 176; 70]] | 1 => [T [194; 176; 67]] | _ => [L "Unit("; D u; L ")"] end.
Definition mode_item (m : Z) (r : list item) : Prop :=
  (exists n, In (m, n) mode_names /\ r = [L n]) \/ (9 <= m /\ r = [L "ThermostatMode("; D m; L ")"]).
Definition status_lines (s : tstatus) (mode : list item) : list (list item) :=
  [ [L "Temperature: "; D (ts_temp s); L " "] ++ unit_item (ts_unit s);
    [L "   Humidity: "; D (ts_humidity s); L "%"];
    [L "   Setpoint: "; D (ts_setpoint s); L " "] ++ unit_item (ts_unit s);
    [L "   Deadband: "; D (ts_deadband s)];
    L "       Mode: " :: mode;
    L "      State: " :: state_items (ts_state s) ].
Definition modem_lines (i : info) (c : Z) : list (list item) :=
  [ [L "PLM Info"];
    [L "      Address: "; A (i_addr i)];
    [L "     Category: "; H (i_dc0 i); L " Sub-Category: "; H (i_dc1 i)];
    [L "     Firmware: "; D (i_fw i)];
    L "       Config: " :: config_items c ].
