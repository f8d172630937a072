(** The data and the results of the generating program as they stand in /repo. *)
From Coq Require Import ZArith List Bool String.
From Verif Require Import GoBase GoText LinkText Autogen.
Import ListNotations.
Open Scope Z_scope.

(** internal/devcats.csv; each of its lines ends with a carriage return and a newline. *)
Definition devcats_csv : list Z := crlf (cps "﻿0x00,0x04,2430,ControLinc 
0x00,0x05,2440,RemoteLinc 
0x00,0x06,2830,ICON Tabletop Controller 
0x00,0x09,2442,SignaLinc RF Signal Enhancer 
0x00,0x0B,2443,Access Point (Wireless Phase Coupler) 
0x00,0x0C,12005,IES Color Touchscreen 
0x00,0x0E,2440EZ,RemoteLinc EZ 
0x00,0x10,2444A2xx4,""RemoteLinc 2 Keypad, 4 Scene ""
0x00,0x11,2444A3xx,RemoteLinc 2 Switch 
0x00,0x12,2444A2xx8,""RemoteLinc 2 Keypad, 8 Scene ""
0x00,0x13,2993-222,Insteon Diagnostics Keypad 
0x00,0x14,2342-432,Insteon Mini Remote - 4 Scene (869 MHz) 
0x00,0x15,2342-442,Insteon Mini Remote - Switch (869 MHz) 
0x00,0x16,2342-422,Insteon Mini Remote - 8 Scene (869 MHz) 
0x00,0x17,2342-532,Insteon Mini Remote - 4 Scene (921 MHz) 
0x00,0x18,2342-522,Insteon Mini Remote - 8 Scene (921 MHz) 
0x00,0x19,2342-542,Insteon Mini Remote - Switch (921 MHz) 
0x00,0x1A,2342-222,Insteon Mini Remote - 8 Scene (915 MHz) 
0x00,0x1B,2342-232,Insteon Mini Remote - 4 Scene (915 MHz) 
0x00,0x1C,2342-242,Insteon Mini Remote - Switch (915 MHz) 
0x00,0x1D,2992-222,Range Extender 
0x01,0x00,2456D3,LampLinc 3-Pin 
0x01,0x01,2476D,SwitchLinc Dimmer 
0x01,0x02,2475D,In-LineLinc Dimmer 
0x01,0x03,2876DB,ICON Dimmer Switch 
0x01,0x04,2476DH,SwitchLinc Dimmer (High Wattage) 
0x01,0x05,2484DWH8,Keypad Countdown Timer w/ Dimmer 
0x01,0x06,2456D2,LampLinc Dimmer (2-Pin) 
0x01,0x07,2856D2B,ICON LampLinc 
0x01,0x08,2476DT,SwitchLinc Dimmer Count-down Timer 
0x01,0x09,2486D,KeypadLinc Dimmer 
0x01,0x0A,2886D,Icon In-Wall Controller 
0x01,0x0B,2632-422,""Insteon Dimmer Module, France (869 MHz) ""
0x01,0x0C,2486DWH8,KeypadLinc Dimmer 
0x01,0x0D,2454D,SocketLinc 
0x01,0x0E,2457D2,LampLinc (Dual-Band) 
0x01,0x0F,2632-432,""Insteon Dimmer Module, Germany (869 MHz) ""
0x01,0x11,2632-442,""Insteon Dimmer Module, UK (869 MHz) ""
0x01,0x12,2632-522,""Insteon Dimmer Module, Aus/NZ (921 MHz) ""
0x01,0x13,2676D-B,ICON SwitchLinc Dimmer Lixar/Bell Canada 
0x01,0x17,2466D,ToggleLinc Dimmer 
0x01,0x18,2474D,Icon SwitchLinc Dimmer Inline Companion 
0x01,0x19,2476D,SwitchLinc Dimmer [with beeper] 
0x01,0x1A,2475D,In-LineLinc Dimmer [with beeper] 
0x01,0x1B,2486DWH6,KeypadLinc Dimmer 
0x01,0x1C,2486DWH8,KeypadLinc Dimmer 
0x01,0x1D,2476DH,SwitchLinc Dimmer (High Wattage)[beeper] 
0x01,0x1E,2876DB,ICON Switch Dimmer 
0x01,0x1F,2466Dx,ToggleLinc Dimmer [with beeper] 
0x01,0x20,2477D,SwitchLinc Dimmer (Dual-Band) 
0x01,0x21,2472D,OutletLinc Dimmer (Dual-Band) 
0x01,0x22,2457D2X,LampLinc 
0x01,0x23,2457D2EZ,LampLinc Dual-Band EZ 
0x01,0x24,2474DWH,SwitchLinc 2-Wire Dimmer (RF) 
0x01,0x25,2475DA2,In-LineLinc 0-10VDC Dimmer/Dual-SwitchDB 
0x01,0x2D,2477DH,SwitchLinc-Dimmer Dual-Band 1000W 
0x01,0x2E,2475F,FanLinc 
0x01,0x2F,2484DST6,KeypadLinc Schedule Timer with Dimmer 
0x01,0x30,2476D,SwitchLinc Dimmer 
0x01,0x31,2478D,SwitchLinc Dimmer 240V-50/60Hz Dual-Band 
0x01,0x32,2475DA1,In-LineLinc Dimmer (Dual Band) 
0x01,0x34,2452-222,Insteon DIN Rail Dimmer (915 MHz) 
0x01,0x35,2442-222,Insteon Micro Dimmer (915 MHz) 
0x01,0x36,2452-422,Insteon DIN Rail Dimmer (869 MHz) 
0x01,0x37,2452-522,Insteon DIN Rail Dimmer (921 MHz) 
0x01,0x38,2442-422,Insteon Micro Dimmer (869 MHz) 
0x01,0x39,2442-522,Insteon Micro Dimmer (921 MHz) 
0x01,0x3A,2672-222,LED Bulb 240V (915 MHz) - Screw-in Base 
0x01,0x3B,2672-422,LED Bulb 240V Europe - Screw-in Base 
0x01,0x3C,2672-522,LED Bulb 240V Aus/NZ - Screw-in Base 
0x01,0x3D,2446-422,Insteon Ballast Dimmer (869 MHz) 
0x01,0x3E,2446-522,Insteon Ballast Dimmer (921 MHz) 
0x01,0x3F,2447-422,Insteon Fixture Dimmer (869 MHz) 
0x01,0x40,2447-522,Insteon Fixture Dimmer (921 MHz) 
0x01,0x41,2334-222,""Keypad Dimmer Dual-Band, 8 Button ""
0x01,0x42,2334-232,""Keypad Dimmer Dual-Band, 6 Button ""
0x01,0x49,2674-222,LED Bulb PAR38 US/Can - Screw-in Base 
0x01,0x4A,2674-422,LED Bulb PAR38 Europe - Screw-in Base 
0x01,0x4B,2674-522,LED Bulb PAR38 Aus/NZ - Screw-in Base 
0x01,0x4C,2672-432,LED Bulb 240V Europe - Bayonet Base 
0x01,0x4D,2672-532,LED Bulb 240V Aus/NZ - Bayonet Base 
0x01,0x4E,2674-432,LED Bulb PAR38 Europe - Bayonet Base 
0x01,0x4F,2674-532,LED Bulb PAR38 Aus/NZ - Bayonet Base 
0x01,0x50,2632-452,""Insteon Dimmer Module, Chile (915 MHz) ""
0x01,0x51,2672-452,LED Bulb 240V (915 MHz) - Screw-in Base 
0x02,0x05,2486SWH8,KeypadLinc 8-button On/Off Switch 
0x02,0x06,2456S3E,Outdoor ApplianceLinc 
0x02,0x07,2456S3T,TimerLinc 
0x02,0x08,2473S,OutletLinc 
0x02,0x09,2456S3,ApplianceLinc (3-Pin) 
0x02,0x0A,2476S,SwitchLinc Relay 
0x02,0x0B,2876S,ICON On/Off Switch 
0x02,0x0C,2856S3,Icon Appliance Module 
0x02,0x0D,2466S,ToggleLinc Relay 
0x02,0x0E,2476ST,SwitchLinc Relay Countdown Timer 
0x02,0x0F,2486SWH6,KeypadLinc On/Off 
0x02,0x10,2475S,In-LineLinc Relay 
0x02,0x12,2474 S/D,ICON In-lineLinc Relay Companion 
0x02,0x13,2676R-B,ICON SwitchLinc Relay Lixar/Bell Canada 
0x02,0x14,2475S2,In-LineLinc Relay with Sense 
0x02,0x15,2476SS,SwitchLinc Relay with Sense 
0x02,0x16,2876S,ICON On/Off Switch (25 max links) 
0x02,0x17,2856S3B,ICON Appliance Module 
0x02,0x18,2494S220,SwitchLinc 220V Relay 
0x02,0x19,2494S220,SwitchLinc 220V Relay [with beeper] 
0x02,0x1A,2466Sx,ToggleLinc Relay [with Beeper] 
0x02,0x1C,2476S,SwitchLinc Relay 
0x02,0x1D,4101,Commercial Switch with relay 
0x02,0x1E,2487S,KeypadLinc On/Off (Dual-Band) 
0x02,0x1F,2475SDB,In-LineLinc On/Off (Dual-Band) 
0x02,0x25,2484SWH8,KeypadLinc 8-Button Countdown On/Off Switch Timer 
0x02,0x26,2485SWH6,Keypad Schedule Timer with On/Off Switch 
0x02,0x29,2476ST,SwitchLinc Relay Countdown Timer 
0x02,0x2A,2477S,SwitchLinc Relay (Dual-Band) 
0x02,0x2B,2475SDB-50,""In-LineLinc On/Off (Dual Band, 50/60 Hz) ""
0x02,0x2C,2487S,""KeypadLinc On/Off (Dual-Band,50/60 Hz) ""
0x02,0x2D,2633-422,""Insteon On/Off Module, France (869 MHz) ""
0x02,0x2E,2453-222,Insteon DIN Rail On/Off (915 MHz) 
0x02,0x2F,2443-222,Insteon Micro On/Off (915 MHz) 
0x02,0x30,2633-432,""Insteon On/Off Module, Germany (869 MHz) ""
0x02,0x31,2443-422,Insteon Micro On/Off (869 MHz) 
0x02,0x32,2443-522,Insteon Micro On/Off (921 MHz) 
0x02,0x33,2453-422,Insteon DIN Rail On/Off (869 MHz) 
0x02,0x34,2453-522,Insteon DIN Rail On/Off (921 MHz) 
0x02,0x35,2633-442,""Insteon On/Off Module, UK (869 MHz) ""
0x02,0x36,2633-522,""Insteon On/Off Module, Aus/NZ (921 MHz) ""
0x02,0x37,2635-222,""Insteon On/Off Module, US (915 MHz) ""
0x02,0x38,2634-222,On/Off Outdoor Module (Dual-Band) 
0x02,0x39,2663-222,On/Off Outlet 
0x02,0x3A,2633-452,""Insteon On/Off Module, Chile (915 MHz) ""
0x03,0x01,2414S,PowerLinc Serial Controller 
0x03,0x02,2414U,PowerLinc USB Controller 
0x03,0x03,2814S,ICON PowerLinc Serial 
0x03,0x04,2814U,ICON PowerLinc USB 
0x03,0x05,2412S,PowerLinc Serial Modem 
0x03,0x06,2411R,IRLinc Receiver 
0x03,0x07,2411T,IRLinc Transmitter 
0x03,0x09,2600RF,SmartLabs RF Developer’s Board 
0x03,0x0A,2410S,SeriaLinc - Insteon to RS232 
0x03,0x0B,2412U,PowerLinc USB Modem 
0x03,0x0F,EZX10IR,EZX10IR X10 IR Receiver 
0x03,0x10,2412N,SmartLinc 
0x03,0x11,2413S,PowerLinc Serial Modem (Dual Band) 
0x03,0x13,2412UH,PowerLinc USB Modem for HouseLinc 
0x03,0x14,2412SH,PowerLinc Serial Modem for HouseLinc 
0x03,0x15,2413U,PowerLinc USB Modem (Dual Band) 
0x03,0x18,2243-222,Insteon Central Controller (915 MHz) 
0x03,0x19,2413SH,PowerLinc Serial Modem for HL(Dual Band) 
0x03,0x1A,2413UH,PowerLinc USB Modem for HL (Dual Band) 
0x03,0x1B,2423A4,iGateway 
0x03,0x1C,2423A7,iGateway 2.0 
0x03,0x1E,2412S,PowerLincModemSerial w/o EEPROM(w/o RF) 
0x03,0x1F,2448A7,USB Adapter - Domestically made 
0x03,0x20,2448A7,USB Adapter 
0x03,0x21,2448A7H,Portable USB Adapter for HouseLinc 
0x03,0x23,2448A7H,Portable USB Adapter for HouseLinc 
0x03,0x24,2448A7T,TouchLinc 
0x03,0x27,2448A7T,TouchLinc 
0x03,0x28,2413Gxx,""Global PLM, Dual Band (915 MHz) ""
0x03,0x29,2413SAD,""PowerLinc Serial Modem (Dual Band) RF OFF, Auto Detect 128K ""
0x03,0x2B,2242-222,Insteon Hub (915 MHz) - no RF 
0x03,0x2E,2242-422,Insteon Hub (EU - 869 MHz) 
0x03,0x2F,2242-522,Insteon Hub (921 MHz) 
0x03,0x30,2242-442,Insteon Hub (UK - 869 MHz) 
0x03,0x31,2242-232,Insteon Hub (Plug-In Version) 
0x03,0x33,2245-222,Insteon Hub II (915 MHz) 
0x03,0x37,2242-222,Insteon Hub (915 MHz) - RF 
0x04,0x00,31270,Compacta EZRain Sprinkler Controller 
0x05,0x00,2670IAQ-80,Broan SMSC080 Exhaust Fan (no beeper) 
0x05,0x02,2670IAQ-110,Broan SMSC110 Exhaust Fan (no beeper) 
0x05,0x03,2441V,Thermostat Adapter 
0x05,0x07,2441ZT,Insteon Wireless Thermostat 
0x05,0x0A,2441ZTH,Insteon Wireless Thermostat (915 MHz) 
0x05,0x0B,2441TH,Insteon Thermostat (915 MHz) 
0x05,0x0C,2670IAQ-80,Broan SMSC080 Switch for 80CFM Fans 
0x05,0x0D,2670IAQ-110,Broan SMSC110 Switch for 110CFM Fans 
0x05,0x0E,2491TxE,Integrated Remote Control Thermostat 
0x05,0x0F,2732-422,Insteon Thermostat (869 MHz) 
0x05,0x10,2732-522,Insteon Thermostat (921 MHz) 
0x05,0x11,2732-432,Insteon Zone Thermostat (869 MHz) 
0x05,0x12,2732-532,Insteon Zone Thermostat (921 MHz) 
0x05,0x13,2732-242,Heat Pump Thermostat - US/Can (915MHz)
0x05,0x14,2732-242,Heat Pump Thermostat - Europe (869.85MHz)
0x05,0x15,2732-242,Heat Pump Thermostat - Aus/NZ (921MHz)
0x07,0x00,2450,I/OLinc 
0x07,0x03,31274,Compacta EZIO2X4 #5010D 
0x07,0x05,31275,Compacta EZSnsRF RcvrIntrfc Dakota Alert 
0x07,0x07,31280,EZIO6I (6 inputs) 
0x07,0x08,31283,EZIO4O (4 relay outputs) 
0x07,0x09,2423A5,SynchroLinc 
0x07,0x0C,2448A5,Lumistat 
0x07,0x0D,2450,I/OLinc 50/60Hz Auto Detect 
0x07,0x0E,2248-222,I/O Module - US (915 MHz) 
0x07,0x0F,2248-422,I/O Module - EU (869.85 MHz) 
0x07,0x10,2248-442,I/O Module - UK (869.85 MHz) 
0x07,0x11,2248-522,I/O Module - AUS (921 MHz) 
0x07,0x12,2822-222,IOLinc Dual-Band - US 
0x07,0x13,2822-422,IOLinc Dual-Band - EU 
0x07,0x14,2822-442,IOLinc Dual-Band - UK 
0x07,0x15,2822-522,IOLinc Dual-Band - AUS/NZ 
0x07,0x16,2822-222,Low Voltage/Contact Closure Interface (Dual Band) - US 
0x07,0x17,2822-422,Low Voltage/Contact Closure Interface (Dual Band) - EU 
0x07,0x18,2822-442,Low Voltage/Contact Closure Interface (Dual Band) - UK 
0x07,0x19,2822-522,Low Voltage/Contact Closure Interface (Dual Band) - AUS/NZ 
0x09,0x07,2423A1,iMeter Solo 
0x09,0x08,2423A2,iMeter Home (Breaker Panel) 
0x09,0x09,2423A3,iMeter Home (Meter) 
0x09,0x0A,2477SA1,220/240V 30A Load Controller NO (DB) 
0x09,0x0B,2477SA2,220/240V 30A Load Controller NC (DB) 
0x09,0x0C,2630A1,GE Water Heater U-SNAP module 
0x09,0x0D,2448A2,Energy Display 
0x09,0x0E,2423A6,Power Strip with iMeter and SynchroLinc 
0x09,0x11,2423A8,Insteon Digital Meter Reader 
0x0E,0x00,318276I,Somfy Drape Controller RF Bridge 
0x0E,0x01,2444-222,Insteon Micro Open/Close (915 MHz) 
0x0E,0x02,2444-422,Insteon Micro Open/Close (869 MHz) 
0x0E,0x03,2444-522,Insteon Micro Open/Close (921 MHz) 
0x0E,0x04,2772-222,Window Shade Kit - US 
0x0E,0x05,2772-422,Window Shade Kit - EU 
0x0E,0x06,2772-522,Window Shade Kit - AUS/NZ 
0x0F,0x06,2458A1,MorningLinc 
0x10,0x01,2842-222,Motion Sensor - US (915 MHz) 
0x10,0x02,2843-222,Insteon Open/Close Sensor (915 MHz) 
0x10,0x04,2842-422,Insteon Motion Sensor (869 MHz) 
0x10,0x05,2842-522,Insteon Motion Sensor (921 MHz) 
0x10,0x06,2843-422,Insteon Open/Close Sensor (869 MHz) 
0x10,0x07,2843-522,Insteon Open/Close Sensor (921 MHz) 
0x10,0x08,2852-222,Leak Sensor - US (915 MHz) 
0x10,0x09,2843-232,Insteon Door Sensor
0x10,0x0A,2982-222,Smoke Bridge 
0x10,0x0D,2852-422,Leak Sensor - EU (869 MHz) 
0x10,0x0E,2852-522,Leak Sensor - AUS/NZ (921 MHz) 
0x10,0x11,2845-222,Door Sensor II (915 MHz) 
0x10,0x14,2845-422,Door Sensor II (869 MHz) 
0x10,0x15,2845-522,Door Sensor II (921 MHz)
0x10,0x16,2844-222,Motion Sensor  - US (915 MHz) 
").

(** devcats.go:44-281, the map [devcatStrings], in source order. *)
Definition devcat_strings : list (Z * Z * list Z) :=
  [ (0x00, 0x04, cps "ControLinc")
  ; (0x00, 0x05, cps "RemoteLinc")
  ; (0x00, 0x06, cps "ICON Tabletop Controller")
  ; (0x00, 0x09, cps "SignaLinc RF Signal Enhancer")
  ; (0x00, 0x0b, cps "Access Point (Wireless Phase Coupler)")
  ; (0x00, 0x0c, cps "IES Color Touchscreen")
  ; (0x00, 0x0e, cps "RemoteLinc EZ")
  ; (0x00, 0x10, cps "RemoteLinc 2 Keypad, 4 Scene")
  ; (0x00, 0x11, cps "RemoteLinc 2 Switch")
  ; (0x00, 0x12, cps "RemoteLinc 2 Keypad, 8 Scene")
  ; (0x00, 0x13, cps "Insteon Diagnostics Keypad")
  ; (0x00, 0x14, cps "Insteon Mini Remote - 4 Scene (869 MHz)")
  ; (0x00, 0x15, cps "Insteon Mini Remote - Switch (869 MHz)")
  ; (0x00, 0x16, cps "Insteon Mini Remote - 8 Scene (869 MHz)")
  ; (0x00, 0x17, cps "Insteon Mini Remote - 4 Scene (921 MHz)")
  ; (0x00, 0x18, cps "Insteon Mini Remote - 8 Scene (921 MHz)")
  ; (0x00, 0x19, cps "Insteon Mini Remote - Switch (921 MHz)")
  ; (0x00, 0x1a, cps "Insteon Mini Remote - 8 Scene (915 MHz)")
  ; (0x00, 0x1b, cps "Insteon Mini Remote - 4 Scene (915 MHz)")
  ; (0x00, 0x1c, cps "Insteon Mini Remote - Switch (915 MHz)")
  ; (0x00, 0x1d, cps "Range Extender")
  ; (0x01, 0x00, cps "LampLinc 3-Pin")
  ; (0x01, 0x01, cps "SwitchLinc Dimmer")
  ; (0x01, 0x02, cps "In-LineLinc Dimmer")
  ; (0x01, 0x03, cps "ICON Dimmer Switch")
  ; (0x01, 0x04, cps "SwitchLinc Dimmer (High Wattage)")
  ; (0x01, 0x05, cps "Keypad Countdown Timer w/ Dimmer")
  ; (0x01, 0x06, cps "LampLinc Dimmer (2-Pin)")
  ; (0x01, 0x07, cps "ICON LampLinc")
  ; (0x01, 0x08, cps "SwitchLinc Dimmer Count-down Timer")
  ; (0x01, 0x09, cps "KeypadLinc Dimmer")
  ; (0x01, 0x0a, cps "Icon In-Wall Controller")
  ; (0x01, 0x0b, cps "Insteon Dimmer Module, France (869 MHz)")
  ; (0x01, 0x0c, cps "KeypadLinc Dimmer")
  ; (0x01, 0x0d, cps "SocketLinc")
  ; (0x01, 0x0e, cps "LampLinc (Dual-Band)")
  ; (0x01, 0x0f, cps "Insteon Dimmer Module, Germany (869 MHz)")
  ; (0x01, 0x11, cps "Insteon Dimmer Module, UK (869 MHz)")
  ; (0x01, 0x12, cps "Insteon Dimmer Module, Aus/NZ (921 MHz)")
  ; (0x01, 0x13, cps "ICON SwitchLinc Dimmer Lixar/Bell Canada")
  ; (0x01, 0x17, cps "ToggleLinc Dimmer")
  ; (0x01, 0x18, cps "Icon SwitchLinc Dimmer Inline Companion")
  ; (0x01, 0x19, cps "SwitchLinc Dimmer [with beeper]")
  ; (0x01, 0x1a, cps "In-LineLinc Dimmer [with beeper]")
  ; (0x01, 0x1b, cps "KeypadLinc Dimmer")
  ; (0x01, 0x1c, cps "KeypadLinc Dimmer")
  ; (0x01, 0x1d, cps "SwitchLinc Dimmer (High Wattage)[beeper]")
  ; (0x01, 0x1e, cps "ICON Switch Dimmer")
  ; (0x01, 0x1f, cps "ToggleLinc Dimmer [with beeper]")
  ; (0x01, 0x20, cps "SwitchLinc Dimmer (Dual-Band)")
  ; (0x01, 0x21, cps "OutletLinc Dimmer (Dual-Band)")
  ; (0x01, 0x22, cps "LampLinc")
  ; (0x01, 0x23, cps "LampLinc Dual-Band EZ")
  ; (0x01, 0x24, cps "SwitchLinc 2-Wire Dimmer (RF)")
  ; (0x01, 0x25, cps "In-LineLinc 0-10VDC Dimmer/Dual-SwitchDB")
  ; (0x01, 0x2d, cps "SwitchLinc-Dimmer Dual-Band 1000W")
  ; (0x01, 0x2e, cps "FanLinc")
  ; (0x01, 0x2f, cps "KeypadLinc Schedule Timer with Dimmer")
  ; (0x01, 0x30, cps "SwitchLinc Dimmer")
  ; (0x01, 0x31, cps "SwitchLinc Dimmer 240V-50/60Hz Dual-Band")
  ; (0x01, 0x32, cps "In-LineLinc Dimmer (Dual Band)")
  ; (0x01, 0x34, cps "Insteon DIN Rail Dimmer (915 MHz)")
  ; (0x01, 0x35, cps "Insteon Micro Dimmer (915 MHz)")
  ; (0x01, 0x36, cps "Insteon DIN Rail Dimmer (869 MHz)")
  ; (0x01, 0x37, cps "Insteon DIN Rail Dimmer (921 MHz)")
  ; (0x01, 0x38, cps "Insteon Micro Dimmer (869 MHz)")
  ; (0x01, 0x39, cps "Insteon Micro Dimmer (921 MHz)")
  ; (0x01, 0x3a, cps "LED Bulb 240V (915 MHz) - Screw-in Base")
  ; (0x01, 0x3b, cps "LED Bulb 240V Europe - Screw-in Base")
  ; (0x01, 0x3c, cps "LED Bulb 240V Aus/NZ - Screw-in Base")
  ; (0x01, 0x3d, cps "Insteon Ballast Dimmer (869 MHz)")
  ; (0x01, 0x3e, cps "Insteon Ballast Dimmer (921 MHz)")
  ; (0x01, 0x3f, cps "Insteon Fixture Dimmer (869 MHz)")
  ; (0x01, 0x40, cps "Insteon Fixture Dimmer (921 MHz)")
  ; (0x01, 0x41, cps "Keypad Dimmer Dual-Band, 8 Button")
  ; (0x01, 0x42, cps "Keypad Dimmer Dual-Band, 6 Button")
  ; (0x01, 0x49, cps "LED Bulb PAR38 US/Can - Screw-in Base")
  ; (0x01, 0x4a, cps "LED Bulb PAR38 Europe - Screw-in Base")
  ; (0x01, 0x4b, cps "LED Bulb PAR38 Aus/NZ - Screw-in Base")
  ; (0x01, 0x4c, cps "LED Bulb 240V Europe - Bayonet Base")
  ; (0x01, 0x4d, cps "LED Bulb 240V Aus/NZ - Bayonet Base")
  ; (0x01, 0x4e, cps "LED Bulb PAR38 Europe - Bayonet Base")
  ; (0x01, 0x4f, cps "LED Bulb PAR38 Aus/NZ - Bayonet Base")
  ; (0x01, 0x50, cps "Insteon Dimmer Module, Chile (915 MHz)")
  ; (0x01, 0x51, cps "LED Bulb 240V (915 MHz) - Screw-in Base")
  ; (0x02, 0x05, cps "KeypadLinc 8-button On/Off Switch")
  ; (0x02, 0x06, cps "Outdoor ApplianceLinc")
  ; (0x02, 0x07, cps "TimerLinc")
  ; (0x02, 0x08, cps "OutletLinc")
  ; (0x02, 0x09, cps "ApplianceLinc (3-Pin)")
  ; (0x02, 0x0a, cps "SwitchLinc Relay")
  ; (0x02, 0x0b, cps "ICON On/Off Switch")
  ; (0x02, 0x0c, cps "Icon Appliance Module")
  ; (0x02, 0x0d, cps "ToggleLinc Relay")
  ; (0x02, 0x0e, cps "SwitchLinc Relay Countdown Timer")
  ; (0x02, 0x0f, cps "KeypadLinc On/Off")
  ; (0x02, 0x10, cps "In-LineLinc Relay")
  ; (0x02, 0x12, cps "ICON In-lineLinc Relay Companion")
  ; (0x02, 0x13, cps "ICON SwitchLinc Relay Lixar/Bell Canada")
  ; (0x02, 0x14, cps "In-LineLinc Relay with Sense")
  ; (0x02, 0x15, cps "SwitchLinc Relay with Sense")
  ; (0x02, 0x16, cps "ICON On/Off Switch (25 max links)")
  ; (0x02, 0x17, cps "ICON Appliance Module")
  ; (0x02, 0x18, cps "SwitchLinc 220V Relay")
  ; (0x02, 0x19, cps "SwitchLinc 220V Relay [with beeper]")
  ; (0x02, 0x1a, cps "ToggleLinc Relay [with Beeper]")
  ; (0x02, 0x1c, cps "SwitchLinc Relay")
  ; (0x02, 0x1d, cps "Commercial Switch with relay")
  ; (0x02, 0x1e, cps "KeypadLinc On/Off (Dual-Band)")
  ; (0x02, 0x1f, cps "In-LineLinc On/Off (Dual-Band)")
  ; (0x02, 0x25, cps "KeypadLinc 8-Button Countdown On/Off Switch Timer")
  ; (0x02, 0x26, cps "Keypad Schedule Timer with On/Off Switch")
  ; (0x02, 0x29, cps "SwitchLinc Relay Countdown Timer")
  ; (0x02, 0x2a, cps "SwitchLinc Relay (Dual-Band)")
  ; (0x02, 0x2b, cps "In-LineLinc On/Off (Dual Band, 50/60 Hz)")
  ; (0x02, 0x2c, cps "KeypadLinc On/Off (Dual-Band,50/60 Hz)")
  ; (0x02, 0x2d, cps "Insteon On/Off Module, France (869 MHz)")
  ; (0x02, 0x2e, cps "Insteon DIN Rail On/Off (915 MHz)")
  ; (0x02, 0x2f, cps "Insteon Micro On/Off (915 MHz)")
  ; (0x02, 0x30, cps "Insteon On/Off Module, Germany (869 MHz)")
  ; (0x02, 0x31, cps "Insteon Micro On/Off (869 MHz)")
  ; (0x02, 0x32, cps "Insteon Micro On/Off (921 MHz)")
  ; (0x02, 0x33, cps "Insteon DIN Rail On/Off (869 MHz)")
  ; (0x02, 0x34, cps "Insteon DIN Rail On/Off (921 MHz)")
  ; (0x02, 0x35, cps "Insteon On/Off Module, UK (869 MHz)")
  ; (0x02, 0x36, cps "Insteon On/Off Module, Aus/NZ (921 MHz)")
  ; (0x02, 0x37, cps "Insteon On/Off Module, US (915 MHz)")
  ; (0x02, 0x38, cps "On/Off Outdoor Module (Dual-Band)")
  ; (0x02, 0x39, cps "On/Off Outlet")
  ; (0x02, 0x3a, cps "Insteon On/Off Module, Chile (915 MHz)")
  ; (0x03, 0x01, cps "PowerLinc Serial Controller")
  ; (0x03, 0x02, cps "PowerLinc USB Controller")
  ; (0x03, 0x03, cps "ICON PowerLinc Serial")
  ; (0x03, 0x04, cps "ICON PowerLinc USB")
  ; (0x03, 0x05, cps "PowerLinc Serial Modem")
  ; (0x03, 0x06, cps "IRLinc Receiver")
  ; (0x03, 0x07, cps "IRLinc Transmitter")
  ; (0x03, 0x09, cps "SmartLabs RF Developer’s Board")
  ; (0x03, 0x0a, cps "SeriaLinc - Insteon to RS232")
  ; (0x03, 0x0b, cps "PowerLinc USB Modem")
  ; (0x03, 0x0f, cps "EZX10IR X10 IR Receiver")
  ; (0x03, 0x10, cps "SmartLinc")
  ; (0x03, 0x11, cps "PowerLinc Serial Modem (Dual Band)")
  ; (0x03, 0x13, cps "PowerLinc USB Modem for HouseLinc")
  ; (0x03, 0x14, cps "PowerLinc Serial Modem for HouseLinc")
  ; (0x03, 0x15, cps "PowerLinc USB Modem (Dual Band)")
  ; (0x03, 0x18, cps "Insteon Central Controller (915 MHz)")
  ; (0x03, 0x19, cps "PowerLinc Serial Modem for HL(Dual Band)")
  ; (0x03, 0x1a, cps "PowerLinc USB Modem for HL (Dual Band)")
  ; (0x03, 0x1b, cps "iGateway")
  ; (0x03, 0x1c, cps "iGateway 2.0")
  ; (0x03, 0x1e, cps "PowerLincModemSerial w/o EEPROM(w/o RF)")
  ; (0x03, 0x1f, cps "USB Adapter - Domestically made")
  ; (0x03, 0x20, cps "USB Adapter")
  ; (0x03, 0x21, cps "Portable USB Adapter for HouseLinc")
  ; (0x03, 0x23, cps "Portable USB Adapter for HouseLinc")
  ; (0x03, 0x24, cps "TouchLinc")
  ; (0x03, 0x27, cps "TouchLinc")
  ; (0x03, 0x28, cps "Global PLM, Dual Band (915 MHz)")
  ; (0x03, 0x29, cps "PowerLinc Serial Modem (Dual Band) RF OFF, Auto Detect 128K")
  ; (0x03, 0x2b, cps "Insteon Hub (915 MHz) - no RF")
  ; (0x03, 0x2e, cps "Insteon Hub (EU - 869 MHz)")
  ; (0x03, 0x2f, cps "Insteon Hub (921 MHz)")
  ; (0x03, 0x30, cps "Insteon Hub (UK - 869 MHz)")
  ; (0x03, 0x31, cps "Insteon Hub (Plug-In Version)")
  ; (0x03, 0x33, cps "Insteon Hub II (915 MHz)")
  ; (0x03, 0x37, cps "Insteon Hub (915 MHz) - RF")
  ; (0x04, 0x00, cps "Compacta EZRain Sprinkler Controller")
  ; (0x05, 0x00, cps "Broan SMSC080 Exhaust Fan (no beeper)")
  ; (0x05, 0x02, cps "Broan SMSC110 Exhaust Fan (no beeper)")
  ; (0x05, 0x03, cps "Thermostat Adapter")
  ; (0x05, 0x07, cps "Insteon Wireless Thermostat")
  ; (0x05, 0x0a, cps "Insteon Wireless Thermostat (915 MHz)")
  ; (0x05, 0x0b, cps "Insteon Thermostat (915 MHz)")
  ; (0x05, 0x0c, cps "Broan SMSC080 Switch for 80CFM Fans")
  ; (0x05, 0x0d, cps "Broan SMSC110 Switch for 110CFM Fans")
  ; (0x05, 0x0e, cps "Integrated Remote Control Thermostat")
  ; (0x05, 0x0f, cps "Insteon Thermostat (869 MHz)")
  ; (0x05, 0x10, cps "Insteon Thermostat (921 MHz)")
  ; (0x05, 0x11, cps "Insteon Zone Thermostat (869 MHz)")
  ; (0x05, 0x12, cps "Insteon Zone Thermostat (921 MHz)")
  ; (0x05, 0x13, cps "Heat Pump Thermostat - US/Can (915MHz)")
  ; (0x05, 0x14, cps "Heat Pump Thermostat - Europe (869.85MHz)")
  ; (0x05, 0x15, cps "Heat Pump Thermostat - Aus/NZ (921MHz)")
  ; (0x07, 0x00, cps "I/OLinc")
  ; (0x07, 0x03, cps "Compacta EZIO2X4 #5010D")
  ; (0x07, 0x05, cps "Compacta EZSnsRF RcvrIntrfc Dakota Alert")
  ; (0x07, 0x07, cps "EZIO6I (6 inputs)")
  ; (0x07, 0x08, cps "EZIO4O (4 relay outputs)")
  ; (0x07, 0x09, cps "SynchroLinc")
  ; (0x07, 0x0c, cps "Lumistat")
  ; (0x07, 0x0d, cps "I/OLinc 50/60Hz Auto Detect")
  ; (0x07, 0x0e, cps "I/O Module - US (915 MHz)")
  ; (0x07, 0x0f, cps "I/O Module - EU (869.85 MHz)")
  ; (0x07, 0x10, cps "I/O Module - UK (869.85 MHz)")
  ; (0x07, 0x11, cps "I/O Module - AUS (921 MHz)")
  ; (0x07, 0x12, cps "IOLinc Dual-Band - US")
  ; (0x07, 0x13, cps "IOLinc Dual-Band - EU")
  ; (0x07, 0x14, cps "IOLinc Dual-Band - UK")
  ; (0x07, 0x15, cps "IOLinc Dual-Band - AUS/NZ")
  ; (0x07, 0x16, cps "Low Voltage/Contact Closure Interface (Dual Band) - US")
  ; (0x07, 0x17, cps "Low Voltage/Contact Closure Interface (Dual Band) - EU")
  ; (0x07, 0x18, cps "Low Voltage/Contact Closure Interface (Dual Band) - UK")
  ; (0x07, 0x19, cps "Low Voltage/Contact Closure Interface (Dual Band) - AUS/NZ")
  ; (0x09, 0x07, cps "iMeter Solo")
  ; (0x09, 0x08, cps "iMeter Home (Breaker Panel)")
  ; (0x09, 0x09, cps "iMeter Home (Meter)")
  ; (0x09, 0x0a, cps "220/240V 30A Load Controller NO (DB)")
  ; (0x09, 0x0b, cps "220/240V 30A Load Controller NC (DB)")
  ; (0x09, 0x0c, cps "GE Water Heater U-SNAP module")
  ; (0x09, 0x0d, cps "Energy Display")
  ; (0x09, 0x0e, cps "Power Strip with iMeter and SynchroLinc")
  ; (0x09, 0x11, cps "Insteon Digital Meter Reader")
  ; (0x0e, 0x00, cps "Somfy Drape Controller RF Bridge")
  ; (0x0e, 0x01, cps "Insteon Micro Open/Close (915 MHz)")
  ; (0x0e, 0x02, cps "Insteon Micro Open/Close (869 MHz)")
  ; (0x0e, 0x03, cps "Insteon Micro Open/Close (921 MHz)")
  ; (0x0e, 0x04, cps "Window Shade Kit - US")
  ; (0x0e, 0x05, cps "Window Shade Kit - EU")
  ; (0x0e, 0x06, cps "Window Shade Kit - AUS/NZ")
  ; (0x0f, 0x06, cps "MorningLinc")
  ; (0x10, 0x01, cps "Motion Sensor - US (915 MHz)")
  ; (0x10, 0x02, cps "Insteon Open/Close Sensor (915 MHz)")
  ; (0x10, 0x04, cps "Insteon Motion Sensor (869 MHz)")
  ; (0x10, 0x05, cps "Insteon Motion Sensor (921 MHz)")
  ; (0x10, 0x06, cps "Insteon Open/Close Sensor (869 MHz)")
  ; (0x10, 0x07, cps "Insteon Open/Close Sensor (921 MHz)")
  ; (0x10, 0x08, cps "Leak Sensor - US (915 MHz)")
  ; (0x10, 0x09, cps "Insteon Door Sensor")
  ; (0x10, 0x0a, cps "Smoke Bridge")
  ; (0x10, 0x0d, cps "Leak Sensor - EU (869 MHz)")
  ; (0x10, 0x0e, cps "Leak Sensor - AUS/NZ (921 MHz)")
  ; (0x10, 0x11, cps "Door Sensor II (915 MHz)")
  ; (0x10, 0x14, cps "Door Sensor II (869 MHz)")
  ; (0x10, 0x15, cps "Door Sensor II (921 MHz)")
  ; (0x10, 0x16, cps "Motion Sensor  - US (915 MHz)") ].

(** COMMANDS.md. *)
Definition commands_md : list Z := zs "
# Known Insteon Commands

The following tables outline all the Insteon command combinations that are
known in this project.

## Standard Direct Commands
Command 1 | Command 2 | Name | Notes
----------|-----------|------|------
0x01|0x00|Assign to All-Link Group|
0x02|0x00|Delete from All-Link Group|
0x03|0x00|Product Data Request|
0x03|0x01|Fx Username Request|
0x03|0x02|Text String Request|
0x08|0x00|Exit Linking Mode|
0x09|0x00|Enter Linking Mode|
0x0a|0x00|Enter Unlinking Mode|
0x0d|0x00|Engine Version|
0x0f|0x00|Ping Request|
0x10|0x00|ID Request|
0x1f|0x00|Get Operating Flags|

## Extended Direct Commands
Command 1 | Command 2 | Name | Notes
----------|-----------|------|------
0x03|0x00|Product Data Response|
0x03|0x01|Fx Username Response|
0x03|0x02|Text String Response|
0x03|0x03|Set Text String|
0x03|0x04|Set All-Link Command Alias|
0x03|0x05|Set All-Link Command Alias Data|
0x08|0x00|Exit Linking Mode (i2cs)|Insteon version 2 with checksum devices only respond to extended linking commands
0x09|0x00|Enter Linking Mode (i2cs)|Insteon version 2 with checksum devices only respond to extended linking commands
0x0a|0x00|Enter Unlinking Mode (i2cs)|Insteon version 2 with checksum devices only respond to extended linking commands
0x20|0x00|Set Operating Flags|
0x2e|0x00|Extended Get/Set|
0x2f|0x00|Read/Write ALDB|

## All-Link Messages
Command 1 | Command 2 | Name | Notes
----------|-----------|------|------
0x06|0x00|All-link Success Report|
0x11|0x00|All-link recall|
0x12|0x00|All-link Alias 2 High|
0x13|0x00|All-link Alias 1 Low|
0x14|0x00|All-link Alias 2 Low|
0x15|0x00|All-link Alias 3 High|
0x16|0x00|All-link Alias 3 Low|
0x17|0x00|All-link Alias 4 High|
0x18|0x00|All-link Alias 4 Low|
0x21|0x00|All-link Alias 5|

## Standard Broadcast Messages
Command 1 | Command 2 | Name | Notes
----------|-----------|------|------
0x01|0x00|Set-button Pressed (responder)|
0x02|0x00|Set-button Pressed (controller)|
0x03|0x00|Test Powerline Phase|
0x04|0x00|Heartbeat|
0x27|0x00|Broadcast Status Change|

## Lighting Standard Direct Messages
Command 1 | Command 2 | Name | Notes
----------|-----------|------|------
0x11|0x00|Light On|
0x12|0x00|Light On Fast|
0x13|0x00|Light Off|
0x14|0x00|Light Off Fast|
0x15|0x00|Brighten Light|
0x16|0x00|Dim Light|
0x18|0x00|Manual Light Change Stop|
0x19|0x00|Status Request|
0x21|0x00|Light Instant Change|
0x22|0x01|Manual On|
0x23|0x01|Manual Off|
0x25|0x01|Set Button Tap|
0x25|0x02|Set Button Tap Twice|
0x27|0x00|Set Status|
0x2e|0x00|Light On At Ramp|This command is for dimmers with firmware version less than version 67
0x34|0x00|Light On At Ramp|Dimmers running firmware version 67 and higher
0x2f|0x00|Light Off At Ramp|
0x35|0x00|Light Off At Ramp|

## Thermostat Standard Direct Messages
Command 1 | Command 2 | Name | Notes
----------|-----------|------|------
0x68|0x00|Decrease Temp|
0x69|0x00|Increase Temp|
0x6a|0x00|Get Zone Info|
0x6b|0x02|Get Mode|
0x6b|0x03|Get Ambient Temp|
0x6b|0x04|Set Heat|
0x6b|0x05|Set Cool|
0x6b|0x06|Set Auto|
0x6b|0x07|Turn Fan On|
0x6b|0x08|Turn Fan Off|
0x6b|0x09|Turn Thermostat Off|
0x6b|0x0a|Set Program Heat|
0x6b|0x0b|Set Program Cool|
0x6b|0x0c|Set Program Auto|
0x6b|0x0d|Get State|
0x6b|0x0e|Set State|
0x6b|0x0f|Get Temp Units|
0x6b|0x10|Set Units Fahrenheit|
0x6b|0x11|Set Units Celsius|
0x6b|0x12|Get Fan On-Speed|
0x6b|0x13|Set Fan-Speed Low|
0x6b|0x14|Set Fan-Speed Med|
0x6b|0x15|Set Fan-Speed High|
0x6b|0x16|Enable Status Change|
0x6b|0x17|Disable Status Change|
0x6c|0x00|Set Cool Set-Point|
0x6d|0x00|Set Heat Set-Point|

## Thermostat Extended Direct Messages
Command 1 | Command 2 | Name | Notes
----------|-----------|------|------
0x68|0x00|Increase Zone Temp|
0x69|0x00|Decrease Zone Temp|
0x6c|0x00|Set Zone Cool Set-Point|
0x6d|0x00|Set Zone Heat Set-Point|

".
