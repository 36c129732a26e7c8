(* The Microsoft code pages 1252 and 1250: byte, code point.  Generated by tools/codepage2v.py from
   the mapping tables that come with Python (Lib/encodings/cp1252.py, cp1250.py), not from the code. *)
From Coq Require Import ZArith List.
Import ListNotations.
Local Open Scope Z_scope.

Definition page1252 : list (Z * Z) := [
  (0x80, 0x20AC); (0x82, 0x201A); (0x83, 0x0192); (0x84, 0x201E); (0x85, 0x2026); (0x86, 0x2020); (0x87, 0x2021); (0x88, 0x02C6);
  (0x89, 0x2030); (0x8A, 0x0160); (0x8B, 0x2039); (0x8C, 0x0152); (0x8E, 0x017D); (0x91, 0x2018); (0x92, 0x2019); (0x93, 0x201C);
  (0x94, 0x201D); (0x95, 0x2022); (0x96, 0x2013); (0x97, 0x2014); (0x98, 0x02DC); (0x99, 0x2122); (0x9A, 0x0161); (0x9B, 0x203A);
  (0x9C, 0x0153); (0x9E, 0x017E); (0x9F, 0x0178); (0xA0, 0x00A0); (0xA1, 0x00A1); (0xA2, 0x00A2); (0xA3, 0x00A3); (0xA4, 0x00A4);
  (0xA5, 0x00A5); (0xA6, 0x00A6); (0xA7, 0x00A7); (0xA8, 0x00A8); (0xA9, 0x00A9); (0xAA, 0x00AA); (0xAB, 0x00AB); (0xAC, 0x00AC);
  (0xAD, 0x00AD); (0xAE, 0x00AE); (0xAF, 0x00AF); (0xB0, 0x00B0); (0xB1, 0x00B1); (0xB2, 0x00B2); (0xB3, 0x00B3); (0xB4, 0x00B4);
  (0xB5, 0x00B5); (0xB6, 0x00B6); (0xB7, 0x00B7); (0xB8, 0x00B8); (0xB9, 0x00B9); (0xBA, 0x00BA); (0xBB, 0x00BB); (0xBC, 0x00BC);
  (0xBD, 0x00BD); (0xBE, 0x00BE); (0xBF, 0x00BF); (0xC0, 0x00C0); (0xC1, 0x00C1); (0xC2, 0x00C2); (0xC3, 0x00C3); (0xC4, 0x00C4);
  (0xC5, 0x00C5); (0xC6, 0x00C6); (0xC7, 0x00C7); (0xC8, 0x00C8); (0xC9, 0x00C9); (0xCA, 0x00CA); (0xCB, 0x00CB); (0xCC, 0x00CC);
  (0xCD, 0x00CD); (0xCE, 0x00CE); (0xCF, 0x00CF); (0xD0, 0x00D0); (0xD1, 0x00D1); (0xD2, 0x00D2); (0xD3, 0x00D3); (0xD4, 0x00D4);
  (0xD5, 0x00D5); (0xD6, 0x00D6); (0xD7, 0x00D7); (0xD8, 0x00D8); (0xD9, 0x00D9); (0xDA, 0x00DA); (0xDB, 0x00DB); (0xDC, 0x00DC);
  (0xDD, 0x00DD); (0xDE, 0x00DE); (0xDF, 0x00DF); (0xE0, 0x00E0); (0xE1, 0x00E1); (0xE2, 0x00E2); (0xE3, 0x00E3); (0xE4, 0x00E4);
  (0xE5, 0x00E5); (0xE6, 0x00E6); (0xE7, 0x00E7); (0xE8, 0x00E8); (0xE9, 0x00E9); (0xEA, 0x00EA); (0xEB, 0x00EB); (0xEC, 0x00EC);
  (0xED, 0x00ED); (0xEE, 0x00EE); (0xEF, 0x00EF); (0xF0, 0x00F0); (0xF1, 0x00F1); (0xF2, 0x00F2); (0xF3, 0x00F3); (0xF4, 0x00F4);
  (0xF5, 0x00F5); (0xF6, 0x00F6); (0xF7, 0x00F7); (0xF8, 0x00F8); (0xF9, 0x00F9); (0xFA, 0x00FA); (0xFB, 0x00FB); (0xFC, 0x00FC);
  (0xFD, 0x00FD); (0xFE, 0x00FE); (0xFF, 0x00FF) ].

Definition page1250 : list (Z * Z) := [
  (0x80, 0x20AC); (0x82, 0x201A); (0x84, 0x201E); (0x85, 0x2026); (0x86, 0x2020); (0x87, 0x2021); (0x89, 0x2030); (0x8A, 0x0160);
  (0x8B, 0x2039); (0x8C, 0x015A); (0x8D, 0x0164); (0x8E, 0x017D); (0x8F, 0x0179); (0x91, 0x2018); (0x92, 0x2019); (0x93, 0x201C);
  (0x94, 0x201D); (0x95, 0x2022); (0x96, 0x2013); (0x97, 0x2014); (0x99, 0x2122); (0x9A, 0x0161); (0x9B, 0x203A); (0x9C, 0x015B);
  (0x9D, 0x0165); (0x9E, 0x017E); (0x9F, 0x017A); (0xA0, 0x00A0); (0xA1, 0x02C7); (0xA2, 0x02D8); (0xA3, 0x0141); (0xA4, 0x00A4);
  (0xA5, 0x0104); (0xA6, 0x00A6); (0xA7, 0x00A7); (0xA8, 0x00A8); (0xA9, 0x00A9); (0xAA, 0x015E); (0xAB, 0x00AB); (0xAC, 0x00AC);
  (0xAD, 0x00AD); (0xAE, 0x00AE); (0xAF, 0x017B); (0xB0, 0x00B0); (0xB1, 0x00B1); (0xB2, 0x02DB); (0xB3, 0x0142); (0xB4, 0x00B4);
  (0xB5, 0x00B5); (0xB6, 0x00B6); (0xB7, 0x00B7); (0xB8, 0x00B8); (0xB9, 0x0105); (0xBA, 0x015F); (0xBB, 0x00BB); (0xBC, 0x013D);
  (0xBD, 0x02DD); (0xBE, 0x013E); (0xBF, 0x017C); (0xC0, 0x0154); (0xC1, 0x00C1); (0xC2, 0x00C2); (0xC3, 0x0102); (0xC4, 0x00C4);
  (0xC5, 0x0139); (0xC6, 0x0106); (0xC7, 0x00C7); (0xC8, 0x010C); (0xC9, 0x00C9); (0xCA, 0x0118); (0xCB, 0x00CB); (0xCC, 0x011A);
  (0xCD, 0x00CD); (0xCE, 0x00CE); (0xCF, 0x010E); (0xD0, 0x0110); (0xD1, 0x0143); (0xD2, 0x0147); (0xD3, 0x00D3); (0xD4, 0x00D4);
  (0xD5, 0x0150); (0xD6, 0x00D6); (0xD7, 0x00D7); (0xD8, 0x0158); (0xD9, 0x016E); (0xDA, 0x00DA); (0xDB, 0x0170); (0xDC, 0x00DC);
  (0xDD, 0x00DD); (0xDE, 0x0162); (0xDF, 0x00DF); (0xE0, 0x0155); (0xE1, 0x00E1); (0xE2, 0x00E2); (0xE3, 0x0103); (0xE4, 0x00E4);
  (0xE5, 0x013A); (0xE6, 0x0107); (0xE7, 0x00E7); (0xE8, 0x010D); (0xE9, 0x00E9); (0xEA, 0x0119); (0xEB, 0x00EB); (0xEC, 0x011B);
  (0xED, 0x00ED); (0xEE, 0x00EE); (0xEF, 0x010F); (0xF0, 0x0111); (0xF1, 0x0144); (0xF2, 0x0148); (0xF3, 0x00F3); (0xF4, 0x00F4);
  (0xF5, 0x0151); (0xF6, 0x00F6); (0xF7, 0x00F7); (0xF8, 0x0159); (0xF9, 0x016F); (0xFA, 0x00FA); (0xFB, 0x0171); (0xFC, 0x00FC);
  (0xFD, 0x00FD); (0xFE, 0x0163); (0xFF, 0x02D9) ].

(* "byte b stands for code point c" *)
Definition stands_for (page : list (Z * Z)) (b c : Z) : Prop := (1 <= b <= 0x7F /\ c = b) \/ In (b, c) page.

(* "the bytes bs stand for the code points cs" *)
Definition stand_for (page : list (Z * Z)) : list Z -> list Z -> Prop := Forall2 (stands_for page).
