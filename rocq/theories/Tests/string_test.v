(* Generated by tools/tests2v.py from /repo/test/unit/string_test.cxx -- do not edit.
   The library's own unit tests run on the model: every EXPECT_ of the C++ is one boolean. *)
From Coq Require Import ZArith List Bool.
From Verif Require Import Machine.
From Verif.Model Require Import Internal Decode Tables Predicate Str Lower CodePage SplitJoin Trim Wide Tchar.
From Verif.Tests Require Import Support.
Import ListNotations.
Local Open Scope Z_scope.

(* testGetUnicodeEncodableFlag, 1 checks, 1 statements left out *)
Definition run_testGetUnicodeEncodableFlag (T : UnicodeTables) : outcome (list bool) :=
  Done [(kNoFlag =? (getUnicodeEncodableRangeFlag 1114112))].
Example run_testGetUnicodeEncodableFlag_passes : all_true (run_testGetUnicodeEncodableFlag (tables V16)) = true.
Proof. vm_cast_no_check (eq_refl true). Qed.

(* testGetCharEncodableFlags, 401 checks, 3 statements left out *)
Definition run_testGetCharEncodableFlags (T : UnicodeTables) : outcome (list bool) :=
  Done [(k7BitFlags =? (getCharEncodableRangeFlags8 0));
        (k7BitFlags =? (getCharEncodableRangeFlags8 1));
        (k7BitFlags =? (getCharEncodableRangeFlags8 2));
        (k7BitFlags =? (getCharEncodableRangeFlags8 3));
        (k7BitFlags =? (getCharEncodableRangeFlags8 4));
        (k7BitFlags =? (getCharEncodableRangeFlags8 5));
        (k7BitFlags =? (getCharEncodableRangeFlags8 6));
        (k7BitFlags =? (getCharEncodableRangeFlags8 7));
        (k7BitFlags =? (getCharEncodableRangeFlags8 8));
        (k7BitFlags =? (getCharEncodableRangeFlags8 9));
        (k7BitFlags =? (getCharEncodableRangeFlags8 10));
        (k7BitFlags =? (getCharEncodableRangeFlags8 11));
        (k7BitFlags =? (getCharEncodableRangeFlags8 12));
        (k7BitFlags =? (getCharEncodableRangeFlags8 13));
        (k7BitFlags =? (getCharEncodableRangeFlags8 14));
        (k7BitFlags =? (getCharEncodableRangeFlags8 15));
        (k7BitFlags =? (getCharEncodableRangeFlags8 16));
        (k7BitFlags =? (getCharEncodableRangeFlags8 17));
        (k7BitFlags =? (getCharEncodableRangeFlags8 18));
        (k7BitFlags =? (getCharEncodableRangeFlags8 19));
        (k7BitFlags =? (getCharEncodableRangeFlags8 20));
        (k7BitFlags =? (getCharEncodableRangeFlags8 21));
        (k7BitFlags =? (getCharEncodableRangeFlags8 22));
        (k7BitFlags =? (getCharEncodableRangeFlags8 23));
        (k7BitFlags =? (getCharEncodableRangeFlags8 24));
        (k7BitFlags =? (getCharEncodableRangeFlags8 25));
        (k7BitFlags =? (getCharEncodableRangeFlags8 26));
        (k7BitFlags =? (getCharEncodableRangeFlags8 27));
        (k7BitFlags =? (getCharEncodableRangeFlags8 28));
        (k7BitFlags =? (getCharEncodableRangeFlags8 29));
        (k7BitFlags =? (getCharEncodableRangeFlags8 30));
        (k7BitFlags =? (getCharEncodableRangeFlags8 31));
        (k7BitFlags =? (getCharEncodableRangeFlags8 32));
        (k7BitFlags =? (getCharEncodableRangeFlags8 33));
        (k7BitFlags =? (getCharEncodableRangeFlags8 34));
        (k7BitFlags =? (getCharEncodableRangeFlags8 35));
        (k7BitFlags =? (getCharEncodableRangeFlags8 36));
        (k7BitFlags =? (getCharEncodableRangeFlags8 37));
        (k7BitFlags =? (getCharEncodableRangeFlags8 38));
        (k7BitFlags =? (getCharEncodableRangeFlags8 39));
        (k7BitFlags =? (getCharEncodableRangeFlags8 40));
        (k7BitFlags =? (getCharEncodableRangeFlags8 41));
        (k7BitFlags =? (getCharEncodableRangeFlags8 42));
        (k7BitFlags =? (getCharEncodableRangeFlags8 43));
        (k7BitFlags =? (getCharEncodableRangeFlags8 44));
        (k7BitFlags =? (getCharEncodableRangeFlags8 45));
        (k7BitFlags =? (getCharEncodableRangeFlags8 46));
        (k7BitFlags =? (getCharEncodableRangeFlags8 47));
        (k7BitFlags =? (getCharEncodableRangeFlags8 48));
        (k7BitFlags =? (getCharEncodableRangeFlags8 49));
        (k7BitFlags =? (getCharEncodableRangeFlags8 50));
        (k7BitFlags =? (getCharEncodableRangeFlags8 51));
        (k7BitFlags =? (getCharEncodableRangeFlags8 52));
        (k7BitFlags =? (getCharEncodableRangeFlags8 53));
        (k7BitFlags =? (getCharEncodableRangeFlags8 54));
        (k7BitFlags =? (getCharEncodableRangeFlags8 55));
        (k7BitFlags =? (getCharEncodableRangeFlags8 56));
        (k7BitFlags =? (getCharEncodableRangeFlags8 57));
        (k7BitFlags =? (getCharEncodableRangeFlags8 58));
        (k7BitFlags =? (getCharEncodableRangeFlags8 59));
        (k7BitFlags =? (getCharEncodableRangeFlags8 60));
        (k7BitFlags =? (getCharEncodableRangeFlags8 61));
        (k7BitFlags =? (getCharEncodableRangeFlags8 62));
        (k7BitFlags =? (getCharEncodableRangeFlags8 63));
        (k7BitFlags =? (getCharEncodableRangeFlags8 64));
        (k7BitFlags =? (getCharEncodableRangeFlags8 65));
        (k7BitFlags =? (getCharEncodableRangeFlags8 66));
        (k7BitFlags =? (getCharEncodableRangeFlags8 67));
        (k7BitFlags =? (getCharEncodableRangeFlags8 68));
        (k7BitFlags =? (getCharEncodableRangeFlags8 69));
        (k7BitFlags =? (getCharEncodableRangeFlags8 70));
        (k7BitFlags =? (getCharEncodableRangeFlags8 71));
        (k7BitFlags =? (getCharEncodableRangeFlags8 72));
        (k7BitFlags =? (getCharEncodableRangeFlags8 73));
        (k7BitFlags =? (getCharEncodableRangeFlags8 74));
        (k7BitFlags =? (getCharEncodableRangeFlags8 75));
        (k7BitFlags =? (getCharEncodableRangeFlags8 76));
        (k7BitFlags =? (getCharEncodableRangeFlags8 77));
        (k7BitFlags =? (getCharEncodableRangeFlags8 78));
        (k7BitFlags =? (getCharEncodableRangeFlags8 79));
        (k7BitFlags =? (getCharEncodableRangeFlags8 80));
        (k7BitFlags =? (getCharEncodableRangeFlags8 81));
        (k7BitFlags =? (getCharEncodableRangeFlags8 82));
        (k7BitFlags =? (getCharEncodableRangeFlags8 83));
        (k7BitFlags =? (getCharEncodableRangeFlags8 84));
        (k7BitFlags =? (getCharEncodableRangeFlags8 85));
        (k7BitFlags =? (getCharEncodableRangeFlags8 86));
        (k7BitFlags =? (getCharEncodableRangeFlags8 87));
        (k7BitFlags =? (getCharEncodableRangeFlags8 88));
        (k7BitFlags =? (getCharEncodableRangeFlags8 89));
        (k7BitFlags =? (getCharEncodableRangeFlags8 90));
        (k7BitFlags =? (getCharEncodableRangeFlags8 91));
        (k7BitFlags =? (getCharEncodableRangeFlags8 92));
        (k7BitFlags =? (getCharEncodableRangeFlags8 93));
        (k7BitFlags =? (getCharEncodableRangeFlags8 94));
        (k7BitFlags =? (getCharEncodableRangeFlags8 95));
        (k7BitFlags =? (getCharEncodableRangeFlags8 96));
        (k7BitFlags =? (getCharEncodableRangeFlags8 97));
        (k7BitFlags =? (getCharEncodableRangeFlags8 98));
        (k7BitFlags =? (getCharEncodableRangeFlags8 99));
        (k7BitFlags =? (getCharEncodableRangeFlags8 100));
        (k7BitFlags =? (getCharEncodableRangeFlags8 101));
        (k7BitFlags =? (getCharEncodableRangeFlags8 102));
        (k7BitFlags =? (getCharEncodableRangeFlags8 103));
        (k7BitFlags =? (getCharEncodableRangeFlags8 104));
        (k7BitFlags =? (getCharEncodableRangeFlags8 105));
        (k7BitFlags =? (getCharEncodableRangeFlags8 106));
        (k7BitFlags =? (getCharEncodableRangeFlags8 107));
        (k7BitFlags =? (getCharEncodableRangeFlags8 108));
        (k7BitFlags =? (getCharEncodableRangeFlags8 109));
        (k7BitFlags =? (getCharEncodableRangeFlags8 110));
        (k7BitFlags =? (getCharEncodableRangeFlags8 111));
        (k7BitFlags =? (getCharEncodableRangeFlags8 112));
        (k7BitFlags =? (getCharEncodableRangeFlags8 113));
        (k7BitFlags =? (getCharEncodableRangeFlags8 114));
        (k7BitFlags =? (getCharEncodableRangeFlags8 115));
        (k7BitFlags =? (getCharEncodableRangeFlags8 116));
        (k7BitFlags =? (getCharEncodableRangeFlags8 117));
        (k7BitFlags =? (getCharEncodableRangeFlags8 118));
        (k7BitFlags =? (getCharEncodableRangeFlags8 119));
        (k7BitFlags =? (getCharEncodableRangeFlags8 120));
        (k7BitFlags =? (getCharEncodableRangeFlags8 121));
        (k7BitFlags =? (getCharEncodableRangeFlags8 122));
        (k7BitFlags =? (getCharEncodableRangeFlags8 123));
        (k7BitFlags =? (getCharEncodableRangeFlags8 124));
        (k7BitFlags =? (getCharEncodableRangeFlags8 125));
        (k7BitFlags =? (getCharEncodableRangeFlags8 126));
        (k7BitFlags =? (getCharEncodableRangeFlags8 127));
        (k16BitFlags =? (getCharEncodableRangeFlags8 128));
        (k16BitFlags =? (getCharEncodableRangeFlags8 129));
        (k16BitFlags =? (getCharEncodableRangeFlags8 130));
        (k16BitFlags =? (getCharEncodableRangeFlags8 131));
        (k16BitFlags =? (getCharEncodableRangeFlags8 132));
        (k16BitFlags =? (getCharEncodableRangeFlags8 133));
        (k16BitFlags =? (getCharEncodableRangeFlags8 134));
        (k16BitFlags =? (getCharEncodableRangeFlags8 135));
        (k16BitFlags =? (getCharEncodableRangeFlags8 136));
        (k16BitFlags =? (getCharEncodableRangeFlags8 137));
        (k16BitFlags =? (getCharEncodableRangeFlags8 138));
        (k16BitFlags =? (getCharEncodableRangeFlags8 139));
        (k16BitFlags =? (getCharEncodableRangeFlags8 140));
        (k16BitFlags =? (getCharEncodableRangeFlags8 141));
        (k16BitFlags =? (getCharEncodableRangeFlags8 142));
        (k16BitFlags =? (getCharEncodableRangeFlags8 143));
        (k16BitFlags =? (getCharEncodableRangeFlags8 144));
        (k16BitFlags =? (getCharEncodableRangeFlags8 145));
        (k16BitFlags =? (getCharEncodableRangeFlags8 146));
        (k16BitFlags =? (getCharEncodableRangeFlags8 147));
        (k16BitFlags =? (getCharEncodableRangeFlags8 148));
        (k16BitFlags =? (getCharEncodableRangeFlags8 149));
        (k16BitFlags =? (getCharEncodableRangeFlags8 150));
        (k16BitFlags =? (getCharEncodableRangeFlags8 151));
        (k16BitFlags =? (getCharEncodableRangeFlags8 152));
        (k16BitFlags =? (getCharEncodableRangeFlags8 153));
        (k16BitFlags =? (getCharEncodableRangeFlags8 154));
        (k16BitFlags =? (getCharEncodableRangeFlags8 155));
        (k16BitFlags =? (getCharEncodableRangeFlags8 156));
        (k16BitFlags =? (getCharEncodableRangeFlags8 157));
        (k16BitFlags =? (getCharEncodableRangeFlags8 158));
        (k16BitFlags =? (getCharEncodableRangeFlags8 159));
        (k16BitFlags =? (getCharEncodableRangeFlags8 160));
        (k16BitFlags =? (getCharEncodableRangeFlags8 161));
        (k16BitFlags =? (getCharEncodableRangeFlags8 162));
        (k16BitFlags =? (getCharEncodableRangeFlags8 163));
        (k16BitFlags =? (getCharEncodableRangeFlags8 164));
        (k16BitFlags =? (getCharEncodableRangeFlags8 165));
        (k16BitFlags =? (getCharEncodableRangeFlags8 166));
        (k16BitFlags =? (getCharEncodableRangeFlags8 167));
        (k16BitFlags =? (getCharEncodableRangeFlags8 168));
        (k16BitFlags =? (getCharEncodableRangeFlags8 169));
        (k16BitFlags =? (getCharEncodableRangeFlags8 170));
        (k16BitFlags =? (getCharEncodableRangeFlags8 171));
        (k16BitFlags =? (getCharEncodableRangeFlags8 172));
        (k16BitFlags =? (getCharEncodableRangeFlags8 173));
        (k16BitFlags =? (getCharEncodableRangeFlags8 174));
        (k16BitFlags =? (getCharEncodableRangeFlags8 175));
        (k16BitFlags =? (getCharEncodableRangeFlags8 176));
        (k16BitFlags =? (getCharEncodableRangeFlags8 177));
        (k16BitFlags =? (getCharEncodableRangeFlags8 178));
        (k16BitFlags =? (getCharEncodableRangeFlags8 179));
        (k16BitFlags =? (getCharEncodableRangeFlags8 180));
        (k16BitFlags =? (getCharEncodableRangeFlags8 181));
        (k16BitFlags =? (getCharEncodableRangeFlags8 182));
        (k16BitFlags =? (getCharEncodableRangeFlags8 183));
        (k16BitFlags =? (getCharEncodableRangeFlags8 184));
        (k16BitFlags =? (getCharEncodableRangeFlags8 185));
        (k16BitFlags =? (getCharEncodableRangeFlags8 186));
        (k16BitFlags =? (getCharEncodableRangeFlags8 187));
        (k16BitFlags =? (getCharEncodableRangeFlags8 188));
        (k16BitFlags =? (getCharEncodableRangeFlags8 189));
        (k16BitFlags =? (getCharEncodableRangeFlags8 190));
        (k16BitFlags =? (getCharEncodableRangeFlags8 191));
        (k16BitFlags =? (getCharEncodableRangeFlags8 192));
        (k16BitFlags =? (getCharEncodableRangeFlags8 193));
        (k16BitFlags =? (getCharEncodableRangeFlags8 194));
        (k16BitFlags =? (getCharEncodableRangeFlags8 195));
        (k16BitFlags =? (getCharEncodableRangeFlags8 196));
        (k16BitFlags =? (getCharEncodableRangeFlags8 197));
        (k16BitFlags =? (getCharEncodableRangeFlags8 198));
        (k16BitFlags =? (getCharEncodableRangeFlags8 199));
        (k16BitFlags =? (getCharEncodableRangeFlags8 200));
        (k16BitFlags =? (getCharEncodableRangeFlags8 201));
        (k16BitFlags =? (getCharEncodableRangeFlags8 202));
        (k16BitFlags =? (getCharEncodableRangeFlags8 203));
        (k16BitFlags =? (getCharEncodableRangeFlags8 204));
        (k16BitFlags =? (getCharEncodableRangeFlags8 205));
        (k16BitFlags =? (getCharEncodableRangeFlags8 206));
        (k16BitFlags =? (getCharEncodableRangeFlags8 207));
        (k16BitFlags =? (getCharEncodableRangeFlags8 208));
        (k16BitFlags =? (getCharEncodableRangeFlags8 209));
        (k16BitFlags =? (getCharEncodableRangeFlags8 210));
        (k16BitFlags =? (getCharEncodableRangeFlags8 211));
        (k16BitFlags =? (getCharEncodableRangeFlags8 212));
        (k16BitFlags =? (getCharEncodableRangeFlags8 213));
        (k16BitFlags =? (getCharEncodableRangeFlags8 214));
        (k16BitFlags =? (getCharEncodableRangeFlags8 215));
        (k16BitFlags =? (getCharEncodableRangeFlags8 216));
        (k16BitFlags =? (getCharEncodableRangeFlags8 217));
        (k16BitFlags =? (getCharEncodableRangeFlags8 218));
        (k16BitFlags =? (getCharEncodableRangeFlags8 219));
        (k16BitFlags =? (getCharEncodableRangeFlags8 220));
        (k16BitFlags =? (getCharEncodableRangeFlags8 221));
        (k16BitFlags =? (getCharEncodableRangeFlags8 222));
        (k16BitFlags =? (getCharEncodableRangeFlags8 223));
        (k16BitFlags =? (getCharEncodableRangeFlags8 224));
        (k16BitFlags =? (getCharEncodableRangeFlags8 225));
        (k16BitFlags =? (getCharEncodableRangeFlags8 226));
        (k16BitFlags =? (getCharEncodableRangeFlags8 227));
        (k16BitFlags =? (getCharEncodableRangeFlags8 228));
        (k16BitFlags =? (getCharEncodableRangeFlags8 229));
        (k16BitFlags =? (getCharEncodableRangeFlags8 230));
        (k16BitFlags =? (getCharEncodableRangeFlags8 231));
        (k16BitFlags =? (getCharEncodableRangeFlags8 232));
        (k16BitFlags =? (getCharEncodableRangeFlags8 233));
        (k16BitFlags =? (getCharEncodableRangeFlags8 234));
        (k16BitFlags =? (getCharEncodableRangeFlags8 235));
        (k16BitFlags =? (getCharEncodableRangeFlags8 236));
        (k16BitFlags =? (getCharEncodableRangeFlags8 237));
        (k16BitFlags =? (getCharEncodableRangeFlags8 238));
        (k16BitFlags =? (getCharEncodableRangeFlags8 239));
        (k16BitFlags =? (getCharEncodableRangeFlags8 240));
        (k16BitFlags =? (getCharEncodableRangeFlags8 241));
        (k16BitFlags =? (getCharEncodableRangeFlags8 242));
        (k16BitFlags =? (getCharEncodableRangeFlags8 243));
        (k16BitFlags =? (getCharEncodableRangeFlags8 244));
        (k16BitFlags =? (getCharEncodableRangeFlags8 245));
        (k16BitFlags =? (getCharEncodableRangeFlags8 246));
        (k16BitFlags =? (getCharEncodableRangeFlags8 247));
        (k16BitFlags =? (getCharEncodableRangeFlags8 248));
        (k16BitFlags =? (getCharEncodableRangeFlags8 249));
        (k16BitFlags =? (getCharEncodableRangeFlags8 250));
        (k16BitFlags =? (getCharEncodableRangeFlags8 251));
        (k16BitFlags =? (getCharEncodableRangeFlags8 252));
        (k16BitFlags =? (getCharEncodableRangeFlags8 253));
        (k16BitFlags =? (getCharEncodableRangeFlags8 254));
        (k16BitFlags =? (getCharEncodableRangeFlags8 255));
        (k7BitFlags =? (getCharEncodableRangeFlags 0));
        (k7BitFlags =? (getCharEncodableRangeFlags 1));
        (k7BitFlags =? (getCharEncodableRangeFlags 2));
        (k7BitFlags =? (getCharEncodableRangeFlags 3));
        (k7BitFlags =? (getCharEncodableRangeFlags 4));
        (k7BitFlags =? (getCharEncodableRangeFlags 5));
        (k7BitFlags =? (getCharEncodableRangeFlags 6));
        (k7BitFlags =? (getCharEncodableRangeFlags 7));
        (k7BitFlags =? (getCharEncodableRangeFlags 8));
        (k7BitFlags =? (getCharEncodableRangeFlags 9));
        (k7BitFlags =? (getCharEncodableRangeFlags 10));
        (k7BitFlags =? (getCharEncodableRangeFlags 11));
        (k7BitFlags =? (getCharEncodableRangeFlags 12));
        (k7BitFlags =? (getCharEncodableRangeFlags 13));
        (k7BitFlags =? (getCharEncodableRangeFlags 14));
        (k7BitFlags =? (getCharEncodableRangeFlags 15));
        (k7BitFlags =? (getCharEncodableRangeFlags 16));
        (k7BitFlags =? (getCharEncodableRangeFlags 17));
        (k7BitFlags =? (getCharEncodableRangeFlags 18));
        (k7BitFlags =? (getCharEncodableRangeFlags 19));
        (k7BitFlags =? (getCharEncodableRangeFlags 20));
        (k7BitFlags =? (getCharEncodableRangeFlags 21));
        (k7BitFlags =? (getCharEncodableRangeFlags 22));
        (k7BitFlags =? (getCharEncodableRangeFlags 23));
        (k7BitFlags =? (getCharEncodableRangeFlags 24));
        (k7BitFlags =? (getCharEncodableRangeFlags 25));
        (k7BitFlags =? (getCharEncodableRangeFlags 26));
        (k7BitFlags =? (getCharEncodableRangeFlags 27));
        (k7BitFlags =? (getCharEncodableRangeFlags 28));
        (k7BitFlags =? (getCharEncodableRangeFlags 29));
        (k7BitFlags =? (getCharEncodableRangeFlags 30));
        (k7BitFlags =? (getCharEncodableRangeFlags 31));
        (k7BitFlags =? (getCharEncodableRangeFlags 32));
        (k7BitFlags =? (getCharEncodableRangeFlags 33));
        (k7BitFlags =? (getCharEncodableRangeFlags 34));
        (k7BitFlags =? (getCharEncodableRangeFlags 35));
        (k7BitFlags =? (getCharEncodableRangeFlags 36));
        (k7BitFlags =? (getCharEncodableRangeFlags 37));
        (k7BitFlags =? (getCharEncodableRangeFlags 38));
        (k7BitFlags =? (getCharEncodableRangeFlags 39));
        (k7BitFlags =? (getCharEncodableRangeFlags 40));
        (k7BitFlags =? (getCharEncodableRangeFlags 41));
        (k7BitFlags =? (getCharEncodableRangeFlags 42));
        (k7BitFlags =? (getCharEncodableRangeFlags 43));
        (k7BitFlags =? (getCharEncodableRangeFlags 44));
        (k7BitFlags =? (getCharEncodableRangeFlags 45));
        (k7BitFlags =? (getCharEncodableRangeFlags 46));
        (k7BitFlags =? (getCharEncodableRangeFlags 47));
        (k7BitFlags =? (getCharEncodableRangeFlags 48));
        (k7BitFlags =? (getCharEncodableRangeFlags 49));
        (k7BitFlags =? (getCharEncodableRangeFlags 50));
        (k7BitFlags =? (getCharEncodableRangeFlags 51));
        (k7BitFlags =? (getCharEncodableRangeFlags 52));
        (k7BitFlags =? (getCharEncodableRangeFlags 53));
        (k7BitFlags =? (getCharEncodableRangeFlags 54));
        (k7BitFlags =? (getCharEncodableRangeFlags 55));
        (k7BitFlags =? (getCharEncodableRangeFlags 56));
        (k7BitFlags =? (getCharEncodableRangeFlags 57));
        (k7BitFlags =? (getCharEncodableRangeFlags 58));
        (k7BitFlags =? (getCharEncodableRangeFlags 59));
        (k7BitFlags =? (getCharEncodableRangeFlags 60));
        (k7BitFlags =? (getCharEncodableRangeFlags 61));
        (k7BitFlags =? (getCharEncodableRangeFlags 62));
        (k7BitFlags =? (getCharEncodableRangeFlags 63));
        (k7BitFlags =? (getCharEncodableRangeFlags 64));
        (k7BitFlags =? (getCharEncodableRangeFlags 65));
        (k7BitFlags =? (getCharEncodableRangeFlags 66));
        (k7BitFlags =? (getCharEncodableRangeFlags 67));
        (k7BitFlags =? (getCharEncodableRangeFlags 68));
        (k7BitFlags =? (getCharEncodableRangeFlags 69));
        (k7BitFlags =? (getCharEncodableRangeFlags 70));
        (k7BitFlags =? (getCharEncodableRangeFlags 71));
        (k7BitFlags =? (getCharEncodableRangeFlags 72));
        (k7BitFlags =? (getCharEncodableRangeFlags 73));
        (k7BitFlags =? (getCharEncodableRangeFlags 74));
        (k7BitFlags =? (getCharEncodableRangeFlags 75));
        (k7BitFlags =? (getCharEncodableRangeFlags 76));
        (k7BitFlags =? (getCharEncodableRangeFlags 77));
        (k7BitFlags =? (getCharEncodableRangeFlags 78));
        (k7BitFlags =? (getCharEncodableRangeFlags 79));
        (k7BitFlags =? (getCharEncodableRangeFlags 80));
        (k7BitFlags =? (getCharEncodableRangeFlags 81));
        (k7BitFlags =? (getCharEncodableRangeFlags 82));
        (k7BitFlags =? (getCharEncodableRangeFlags 83));
        (k7BitFlags =? (getCharEncodableRangeFlags 84));
        (k7BitFlags =? (getCharEncodableRangeFlags 85));
        (k7BitFlags =? (getCharEncodableRangeFlags 86));
        (k7BitFlags =? (getCharEncodableRangeFlags 87));
        (k7BitFlags =? (getCharEncodableRangeFlags 88));
        (k7BitFlags =? (getCharEncodableRangeFlags 89));
        (k7BitFlags =? (getCharEncodableRangeFlags 90));
        (k7BitFlags =? (getCharEncodableRangeFlags 91));
        (k7BitFlags =? (getCharEncodableRangeFlags 92));
        (k7BitFlags =? (getCharEncodableRangeFlags 93));
        (k7BitFlags =? (getCharEncodableRangeFlags 94));
        (k7BitFlags =? (getCharEncodableRangeFlags 95));
        (k7BitFlags =? (getCharEncodableRangeFlags 96));
        (k7BitFlags =? (getCharEncodableRangeFlags 97));
        (k7BitFlags =? (getCharEncodableRangeFlags 98));
        (k7BitFlags =? (getCharEncodableRangeFlags 99));
        (k7BitFlags =? (getCharEncodableRangeFlags 100));
        (k7BitFlags =? (getCharEncodableRangeFlags 101));
        (k7BitFlags =? (getCharEncodableRangeFlags 102));
        (k7BitFlags =? (getCharEncodableRangeFlags 103));
        (k7BitFlags =? (getCharEncodableRangeFlags 104));
        (k7BitFlags =? (getCharEncodableRangeFlags 105));
        (k7BitFlags =? (getCharEncodableRangeFlags 106));
        (k7BitFlags =? (getCharEncodableRangeFlags 107));
        (k7BitFlags =? (getCharEncodableRangeFlags 108));
        (k7BitFlags =? (getCharEncodableRangeFlags 109));
        (k7BitFlags =? (getCharEncodableRangeFlags 110));
        (k7BitFlags =? (getCharEncodableRangeFlags 111));
        (k7BitFlags =? (getCharEncodableRangeFlags 112));
        (k7BitFlags =? (getCharEncodableRangeFlags 113));
        (k7BitFlags =? (getCharEncodableRangeFlags 114));
        (k7BitFlags =? (getCharEncodableRangeFlags 115));
        (k7BitFlags =? (getCharEncodableRangeFlags 116));
        (k7BitFlags =? (getCharEncodableRangeFlags 117));
        (k7BitFlags =? (getCharEncodableRangeFlags 118));
        (k7BitFlags =? (getCharEncodableRangeFlags 119));
        (k7BitFlags =? (getCharEncodableRangeFlags 120));
        (k7BitFlags =? (getCharEncodableRangeFlags 121));
        (k7BitFlags =? (getCharEncodableRangeFlags 122));
        (k7BitFlags =? (getCharEncodableRangeFlags 123));
        (k7BitFlags =? (getCharEncodableRangeFlags 124));
        (k7BitFlags =? (getCharEncodableRangeFlags 125));
        (k7BitFlags =? (getCharEncodableRangeFlags 126));
        (k7BitFlags =? (getCharEncodableRangeFlags 127));
        (k7BitFlags =? (getCharEncodableRangeFlags 1));
        (k7BitFlags =? (getCharEncodableRangeFlags 127));
        (k16BitFlags =? (getCharEncodableRangeFlags 128));
        (k16BitFlags =? (getCharEncodableRangeFlags 55295));
        (kInvalidRangeFlag =? (getCharEncodableRangeFlags 55296));
        (kInvalidRangeFlag =? (getCharEncodableRangeFlags 56319));
        (kInvalidRangeFlag =? (getCharEncodableRangeFlags 56320));
        (kInvalidRangeFlag =? (getCharEncodableRangeFlags 57343));
        (k16BitFlags =? (getCharEncodableRangeFlags 57344));
        (k16BitFlags =? (getCharEncodableRangeFlags 65535));
        (k21BitUnicodeFlags =? (Z.land k21BitUnicodeFlags (getCharEncodableRangeFlags 65536)));
        (k21BitUnicodeFlags =? (Z.land k21BitUnicodeFlags (getCharEncodableRangeFlags 1114111)));
        (k21BitFlags =? (getCharEncodableRangeFlags 1114112));
        (k21BitFlags =? (getCharEncodableRangeFlags 2097151));
        (k31BitFlags =? (getCharEncodableRangeFlags 2097152));
        (k31BitFlags =? (getCharEncodableRangeFlags 2147483647));
        (k32BitFlags =? (getCharEncodableRangeFlags 2147483648))].
Example run_testGetCharEncodableFlags_passes : all_true (run_testGetCharEncodableFlags (tables V16)) = true.
Proof. vm_cast_no_check (eq_refl true). Qed.

(* testGetRangeFlag, 255 checks *)
Definition run_testGetRangeFlag (T : UnicodeTables) : outcome (list bool) :=
  Done [(k7BitFlags =? (getRangeFlag8 0));
        (k7BitFlags =? (getRangeFlag8 1));
        (k7BitFlags =? (getRangeFlag8 2));
        (k7BitFlags =? (getRangeFlag8 3));
        (k7BitFlags =? (getRangeFlag8 4));
        (k7BitFlags =? (getRangeFlag8 5));
        (k7BitFlags =? (getRangeFlag8 6));
        (k7BitFlags =? (getRangeFlag8 7));
        (k7BitFlags =? (getRangeFlag8 8));
        (k7BitFlags =? (getRangeFlag8 9));
        (k7BitFlags =? (getRangeFlag8 10));
        (k7BitFlags =? (getRangeFlag8 11));
        (k7BitFlags =? (getRangeFlag8 12));
        (k7BitFlags =? (getRangeFlag8 13));
        (k7BitFlags =? (getRangeFlag8 14));
        (k7BitFlags =? (getRangeFlag8 15));
        (k7BitFlags =? (getRangeFlag8 16));
        (k7BitFlags =? (getRangeFlag8 17));
        (k7BitFlags =? (getRangeFlag8 18));
        (k7BitFlags =? (getRangeFlag8 19));
        (k7BitFlags =? (getRangeFlag8 20));
        (k7BitFlags =? (getRangeFlag8 21));
        (k7BitFlags =? (getRangeFlag8 22));
        (k7BitFlags =? (getRangeFlag8 23));
        (k7BitFlags =? (getRangeFlag8 24));
        (k7BitFlags =? (getRangeFlag8 25));
        (k7BitFlags =? (getRangeFlag8 26));
        (k7BitFlags =? (getRangeFlag8 27));
        (k7BitFlags =? (getRangeFlag8 28));
        (k7BitFlags =? (getRangeFlag8 29));
        (k7BitFlags =? (getRangeFlag8 30));
        (k7BitFlags =? (getRangeFlag8 31));
        (k7BitFlags =? (getRangeFlag8 32));
        (k7BitFlags =? (getRangeFlag8 33));
        (k7BitFlags =? (getRangeFlag8 34));
        (k7BitFlags =? (getRangeFlag8 35));
        (k7BitFlags =? (getRangeFlag8 36));
        (k7BitFlags =? (getRangeFlag8 37));
        (k7BitFlags =? (getRangeFlag8 38));
        (k7BitFlags =? (getRangeFlag8 39));
        (k7BitFlags =? (getRangeFlag8 40));
        (k7BitFlags =? (getRangeFlag8 41));
        (k7BitFlags =? (getRangeFlag8 42));
        (k7BitFlags =? (getRangeFlag8 43));
        (k7BitFlags =? (getRangeFlag8 44));
        (k7BitFlags =? (getRangeFlag8 45));
        (k7BitFlags =? (getRangeFlag8 46));
        (k7BitFlags =? (getRangeFlag8 47));
        (k7BitFlags =? (getRangeFlag8 48));
        (k7BitFlags =? (getRangeFlag8 49));
        (k7BitFlags =? (getRangeFlag8 50));
        (k7BitFlags =? (getRangeFlag8 51));
        (k7BitFlags =? (getRangeFlag8 52));
        (k7BitFlags =? (getRangeFlag8 53));
        (k7BitFlags =? (getRangeFlag8 54));
        (k7BitFlags =? (getRangeFlag8 55));
        (k7BitFlags =? (getRangeFlag8 56));
        (k7BitFlags =? (getRangeFlag8 57));
        (k7BitFlags =? (getRangeFlag8 58));
        (k7BitFlags =? (getRangeFlag8 59));
        (k7BitFlags =? (getRangeFlag8 60));
        (k7BitFlags =? (getRangeFlag8 61));
        (k7BitFlags =? (getRangeFlag8 62));
        (k7BitFlags =? (getRangeFlag8 63));
        (k7BitFlags =? (getRangeFlag8 64));
        (k7BitFlags =? (getRangeFlag8 65));
        (k7BitFlags =? (getRangeFlag8 66));
        (k7BitFlags =? (getRangeFlag8 67));
        (k7BitFlags =? (getRangeFlag8 68));
        (k7BitFlags =? (getRangeFlag8 69));
        (k7BitFlags =? (getRangeFlag8 70));
        (k7BitFlags =? (getRangeFlag8 71));
        (k7BitFlags =? (getRangeFlag8 72));
        (k7BitFlags =? (getRangeFlag8 73));
        (k7BitFlags =? (getRangeFlag8 74));
        (k7BitFlags =? (getRangeFlag8 75));
        (k7BitFlags =? (getRangeFlag8 76));
        (k7BitFlags =? (getRangeFlag8 77));
        (k7BitFlags =? (getRangeFlag8 78));
        (k7BitFlags =? (getRangeFlag8 79));
        (k7BitFlags =? (getRangeFlag8 80));
        (k7BitFlags =? (getRangeFlag8 81));
        (k7BitFlags =? (getRangeFlag8 82));
        (k7BitFlags =? (getRangeFlag8 83));
        (k7BitFlags =? (getRangeFlag8 84));
        (k7BitFlags =? (getRangeFlag8 85));
        (k7BitFlags =? (getRangeFlag8 86));
        (k7BitFlags =? (getRangeFlag8 87));
        (k7BitFlags =? (getRangeFlag8 88));
        (k7BitFlags =? (getRangeFlag8 89));
        (k7BitFlags =? (getRangeFlag8 90));
        (k7BitFlags =? (getRangeFlag8 91));
        (k7BitFlags =? (getRangeFlag8 92));
        (k7BitFlags =? (getRangeFlag8 93));
        (k7BitFlags =? (getRangeFlag8 94));
        (k7BitFlags =? (getRangeFlag8 95));
        (k7BitFlags =? (getRangeFlag8 96));
        (k7BitFlags =? (getRangeFlag8 97));
        (k7BitFlags =? (getRangeFlag8 98));
        (k7BitFlags =? (getRangeFlag8 99));
        (k7BitFlags =? (getRangeFlag8 100));
        (k7BitFlags =? (getRangeFlag8 101));
        (k7BitFlags =? (getRangeFlag8 102));
        (k7BitFlags =? (getRangeFlag8 103));
        (k7BitFlags =? (getRangeFlag8 104));
        (k7BitFlags =? (getRangeFlag8 105));
        (k7BitFlags =? (getRangeFlag8 106));
        (k7BitFlags =? (getRangeFlag8 107));
        (k7BitFlags =? (getRangeFlag8 108));
        (k7BitFlags =? (getRangeFlag8 109));
        (k7BitFlags =? (getRangeFlag8 110));
        (k7BitFlags =? (getRangeFlag8 111));
        (k7BitFlags =? (getRangeFlag8 112));
        (k7BitFlags =? (getRangeFlag8 113));
        (k7BitFlags =? (getRangeFlag8 114));
        (k7BitFlags =? (getRangeFlag8 115));
        (k7BitFlags =? (getRangeFlag8 116));
        (k7BitFlags =? (getRangeFlag8 117));
        (k7BitFlags =? (getRangeFlag8 118));
        (k7BitFlags =? (getRangeFlag8 119));
        (k7BitFlags =? (getRangeFlag8 120));
        (k7BitFlags =? (getRangeFlag8 121));
        (k7BitFlags =? (getRangeFlag8 122));
        (k7BitFlags =? (getRangeFlag8 123));
        (k7BitFlags =? (getRangeFlag8 124));
        (k7BitFlags =? (getRangeFlag8 125));
        (k7BitFlags =? (getRangeFlag8 126));
        (k7BitFlags =? (getRangeFlag8 127));
        (kInvalidRangeFlag =? (getRangeFlag8 128));
        (kInvalidRangeFlag =? (getRangeFlag8 129));
        (kInvalidRangeFlag =? (getRangeFlag8 130));
        (kInvalidRangeFlag =? (getRangeFlag8 131));
        (kInvalidRangeFlag =? (getRangeFlag8 132));
        (kInvalidRangeFlag =? (getRangeFlag8 133));
        (kInvalidRangeFlag =? (getRangeFlag8 134));
        (kInvalidRangeFlag =? (getRangeFlag8 135));
        (kInvalidRangeFlag =? (getRangeFlag8 136));
        (kInvalidRangeFlag =? (getRangeFlag8 137));
        (kInvalidRangeFlag =? (getRangeFlag8 138));
        (kInvalidRangeFlag =? (getRangeFlag8 139));
        (kInvalidRangeFlag =? (getRangeFlag8 140));
        (kInvalidRangeFlag =? (getRangeFlag8 141));
        (kInvalidRangeFlag =? (getRangeFlag8 142));
        (kInvalidRangeFlag =? (getRangeFlag8 143));
        (kInvalidRangeFlag =? (getRangeFlag8 144));
        (kInvalidRangeFlag =? (getRangeFlag8 145));
        (kInvalidRangeFlag =? (getRangeFlag8 146));
        (kInvalidRangeFlag =? (getRangeFlag8 147));
        (kInvalidRangeFlag =? (getRangeFlag8 148));
        (kInvalidRangeFlag =? (getRangeFlag8 149));
        (kInvalidRangeFlag =? (getRangeFlag8 150));
        (kInvalidRangeFlag =? (getRangeFlag8 151));
        (kInvalidRangeFlag =? (getRangeFlag8 152));
        (kInvalidRangeFlag =? (getRangeFlag8 153));
        (kInvalidRangeFlag =? (getRangeFlag8 154));
        (kInvalidRangeFlag =? (getRangeFlag8 155));
        (kInvalidRangeFlag =? (getRangeFlag8 156));
        (kInvalidRangeFlag =? (getRangeFlag8 157));
        (kInvalidRangeFlag =? (getRangeFlag8 158));
        (kInvalidRangeFlag =? (getRangeFlag8 159));
        (kInvalidRangeFlag =? (getRangeFlag8 160));
        (kInvalidRangeFlag =? (getRangeFlag8 161));
        (kInvalidRangeFlag =? (getRangeFlag8 162));
        (kInvalidRangeFlag =? (getRangeFlag8 163));
        (kInvalidRangeFlag =? (getRangeFlag8 164));
        (kInvalidRangeFlag =? (getRangeFlag8 165));
        (kInvalidRangeFlag =? (getRangeFlag8 166));
        (kInvalidRangeFlag =? (getRangeFlag8 167));
        (kInvalidRangeFlag =? (getRangeFlag8 168));
        (kInvalidRangeFlag =? (getRangeFlag8 169));
        (kInvalidRangeFlag =? (getRangeFlag8 170));
        (kInvalidRangeFlag =? (getRangeFlag8 171));
        (kInvalidRangeFlag =? (getRangeFlag8 172));
        (kInvalidRangeFlag =? (getRangeFlag8 173));
        (kInvalidRangeFlag =? (getRangeFlag8 174));
        (kInvalidRangeFlag =? (getRangeFlag8 175));
        (kInvalidRangeFlag =? (getRangeFlag8 176));
        (kInvalidRangeFlag =? (getRangeFlag8 177));
        (kInvalidRangeFlag =? (getRangeFlag8 178));
        (kInvalidRangeFlag =? (getRangeFlag8 179));
        (kInvalidRangeFlag =? (getRangeFlag8 180));
        (kInvalidRangeFlag =? (getRangeFlag8 181));
        (kInvalidRangeFlag =? (getRangeFlag8 182));
        (kInvalidRangeFlag =? (getRangeFlag8 183));
        (kInvalidRangeFlag =? (getRangeFlag8 184));
        (kInvalidRangeFlag =? (getRangeFlag8 185));
        (kInvalidRangeFlag =? (getRangeFlag8 186));
        (kInvalidRangeFlag =? (getRangeFlag8 187));
        (kInvalidRangeFlag =? (getRangeFlag8 188));
        (kInvalidRangeFlag =? (getRangeFlag8 189));
        (kInvalidRangeFlag =? (getRangeFlag8 190));
        (kInvalidRangeFlag =? (getRangeFlag8 191));
        (k16BitFlags =? (getRangeFlag8 192));
        (k16BitFlags =? (getRangeFlag8 193));
        (k16BitFlags =? (getRangeFlag8 194));
        (k16BitFlags =? (getRangeFlag8 195));
        (k16BitFlags =? (getRangeFlag8 196));
        (k16BitFlags =? (getRangeFlag8 197));
        (k16BitFlags =? (getRangeFlag8 198));
        (k16BitFlags =? (getRangeFlag8 199));
        (k16BitFlags =? (getRangeFlag8 200));
        (k16BitFlags =? (getRangeFlag8 201));
        (k16BitFlags =? (getRangeFlag8 202));
        (k16BitFlags =? (getRangeFlag8 203));
        (k16BitFlags =? (getRangeFlag8 204));
        (k16BitFlags =? (getRangeFlag8 205));
        (k16BitFlags =? (getRangeFlag8 206));
        (k16BitFlags =? (getRangeFlag8 207));
        (k16BitFlags =? (getRangeFlag8 208));
        (k16BitFlags =? (getRangeFlag8 209));
        (k16BitFlags =? (getRangeFlag8 210));
        (k16BitFlags =? (getRangeFlag8 211));
        (k16BitFlags =? (getRangeFlag8 212));
        (k16BitFlags =? (getRangeFlag8 213));
        (k16BitFlags =? (getRangeFlag8 214));
        (k16BitFlags =? (getRangeFlag8 215));
        (k16BitFlags =? (getRangeFlag8 216));
        (k16BitFlags =? (getRangeFlag8 217));
        (k16BitFlags =? (getRangeFlag8 218));
        (k16BitFlags =? (getRangeFlag8 219));
        (k16BitFlags =? (getRangeFlag8 220));
        (k16BitFlags =? (getRangeFlag8 221));
        (k16BitFlags =? (getRangeFlag8 222));
        (k16BitFlags =? (getRangeFlag8 223));
        (k16BitFlags =? (getRangeFlag8 224));
        (k16BitFlags =? (getRangeFlag8 225));
        (k16BitFlags =? (getRangeFlag8 226));
        (k16BitFlags =? (getRangeFlag8 227));
        (k16BitFlags =? (getRangeFlag8 228));
        (k16BitFlags =? (getRangeFlag8 229));
        (k16BitFlags =? (getRangeFlag8 230));
        (k16BitFlags =? (getRangeFlag8 231));
        (k16BitFlags =? (getRangeFlag8 232));
        (k16BitFlags =? (getRangeFlag8 233));
        (k16BitFlags =? (getRangeFlag8 234));
        (k16BitFlags =? (getRangeFlag8 235));
        (k16BitFlags =? (getRangeFlag8 236));
        (k16BitFlags =? (getRangeFlag8 237));
        (k16BitFlags =? (getRangeFlag8 238));
        (k16BitFlags =? (getRangeFlag8 239));
        (k21BitUnicodeFlags =? (getRangeFlag8 240));
        (k21BitUnicodeFlags =? (getRangeFlag8 241));
        (k21BitUnicodeFlags =? (getRangeFlag8 242));
        (k21BitUnicodeFlags =? (getRangeFlag8 243));
        (k21BitUnicodeFlags =? (getRangeFlag8 244));
        (k31BitFlags =? (getRangeFlag8 245));
        (k31BitFlags =? (getRangeFlag8 246));
        (k31BitFlags =? (getRangeFlag8 247));
        (k31BitFlags =? (getRangeFlag8 248));
        (k31BitFlags =? (getRangeFlag8 249));
        (k31BitFlags =? (getRangeFlag8 250));
        (k31BitFlags =? (getRangeFlag8 251));
        (k31BitFlags =? (getRangeFlag8 252));
        (k31BitFlags =? (getRangeFlag8 253));
        (kInvalidRangeFlag =? (getRangeFlag8 254))].
Example run_testGetRangeFlag_passes : all_true (run_testGetRangeFlag (tables V16)) = true.
Proof. vm_cast_no_check (eq_refl true). Qed.

(* testDecodeUtf8, 84 checks *)
Definition run_testDecodeUtf8 (T : UnicodeTables) : outcome (list bool) :=
  Done [(128 =? (rawDecodeUtf8_2 194 128));
        (256 =? (rawDecodeUtf8_2 196 128));
        (512 =? (rawDecodeUtf8_2 200 128));
        (1024 =? (rawDecodeUtf8_2 208 128));
        (1536 =? (rawDecodeUtf8_2 216 128));
        (1792 =? (rawDecodeUtf8_2 220 128));
        (1920 =? (rawDecodeUtf8_2 222 128));
        (1984 =? (rawDecodeUtf8_2 223 128));
        (2016 =? (rawDecodeUtf8_2 223 160));
        (2032 =? (rawDecodeUtf8_2 223 176));
        (2040 =? (rawDecodeUtf8_2 223 184));
        (2044 =? (rawDecodeUtf8_2 223 188));
        (2046 =? (rawDecodeUtf8_2 223 190));
        (2047 =? (rawDecodeUtf8_2 223 191));
        (4096 =? (rawDecodeUtf8_3 225 128 128));
        (8192 =? (rawDecodeUtf8_3 226 128 128));
        (16384 =? (rawDecodeUtf8_3 228 128 128));
        (32768 =? (rawDecodeUtf8_3 232 128 128));
        (49152 =? (rawDecodeUtf8_3 236 128 128));
        (57344 =? (rawDecodeUtf8_3 238 128 128));
        (61440 =? (rawDecodeUtf8_3 239 128 128));
        (63488 =? (rawDecodeUtf8_3 239 160 128));
        (64512 =? (rawDecodeUtf8_3 239 176 128));
        (65024 =? (rawDecodeUtf8_3 239 184 128));
        (65280 =? (rawDecodeUtf8_3 239 188 128));
        (65408 =? (rawDecodeUtf8_3 239 190 128));
        (65472 =? (rawDecodeUtf8_3 239 191 128));
        (65504 =? (rawDecodeUtf8_3 239 191 160));
        (65520 =? (rawDecodeUtf8_3 239 191 176));
        (65528 =? (rawDecodeUtf8_3 239 191 184));
        (65532 =? (rawDecodeUtf8_3 239 191 188));
        (65534 =? (rawDecodeUtf8_3 239 191 190));
        (65535 =? (rawDecodeUtf8_3 239 191 191));
        (65536 =? (rawDecodeUtf8_4 240 144 128 128));
        (131072 =? (rawDecodeUtf8_4 240 160 128 128));
        (262144 =? (rawDecodeUtf8_4 241 128 128 128));
        (524288 =? (rawDecodeUtf8_4 242 128 128 128));
        (1048576 =? (rawDecodeUtf8_4 244 128 128 128));
        (1572864 =? (rawDecodeUtf8_4 246 128 128 128));
        (1835008 =? (rawDecodeUtf8_4 247 128 128 128));
        (1966080 =? (rawDecodeUtf8_4 247 160 128 128));
        (2031616 =? (rawDecodeUtf8_4 247 176 128 128));
        (2064384 =? (rawDecodeUtf8_4 247 184 128 128));
        (2080768 =? (rawDecodeUtf8_4 247 188 128 128));
        (2088960 =? (rawDecodeUtf8_4 247 190 128 128));
        (2093056 =? (rawDecodeUtf8_4 247 191 128 128));
        (2095104 =? (rawDecodeUtf8_4 247 191 160 128));
        (2096128 =? (rawDecodeUtf8_4 247 191 176 128));
        (2096640 =? (rawDecodeUtf8_4 247 191 184 128));
        (2096896 =? (rawDecodeUtf8_4 247 191 188 128));
        (2097024 =? (rawDecodeUtf8_4 247 191 190 128));
        (2097088 =? (rawDecodeUtf8_4 247 191 191 128));
        (2097120 =? (rawDecodeUtf8_4 247 191 191 160));
        (2097136 =? (rawDecodeUtf8_4 247 191 191 176));
        (2097144 =? (rawDecodeUtf8_4 247 191 191 184));
        (2097148 =? (rawDecodeUtf8_4 247 191 191 188));
        (2097150 =? (rawDecodeUtf8_4 247 191 191 190));
        (2097151 =? (rawDecodeUtf8_4 247 191 191 191));
        (2097152 =? (rawDecodeUtf8_5 248 136 128 128 128));
        (4194304 =? (rawDecodeUtf8_5 248 144 128 128 128));
        (8388608 =? (rawDecodeUtf8_5 248 160 128 128 128));
        (16777216 =? (rawDecodeUtf8_5 249 128 128 128 128));
        (33554432 =? (rawDecodeUtf8_5 250 128 128 128 128));
        (50331648 =? (rawDecodeUtf8_5 251 128 128 128 128));
        (58720256 =? (rawDecodeUtf8_5 251 160 128 128 128));
        (62914560 =? (rawDecodeUtf8_5 251 176 128 128 128));
        (65011712 =? (rawDecodeUtf8_5 251 184 128 128 128));
        (66060288 =? (rawDecodeUtf8_5 251 188 128 128 128));
        (66584576 =? (rawDecodeUtf8_5 251 190 128 128 128));
        (66846720 =? (rawDecodeUtf8_5 251 191 128 128 128));
        (67104768 =? (rawDecodeUtf8_5 251 191 191 128 128));
        (67108863 =? (rawDecodeUtf8_5 251 191 191 191 191));
        (67108864 =? (rawDecodeUtf8_6 252 132 128 128 128 128));
        (134217728 =? (rawDecodeUtf8_6 252 136 128 128 128 128));
        (268435456 =? (rawDecodeUtf8_6 252 144 128 128 128 128));
        (536870912 =? (rawDecodeUtf8_6 252 160 128 128 128 128));
        (1073741824 =? (rawDecodeUtf8_6 253 128 128 128 128 128));
        (1610612736 =? (rawDecodeUtf8_6 253 160 128 128 128 128));
        (1879048192 =? (rawDecodeUtf8_6 253 176 128 128 128 128));
        (2130706432 =? (rawDecodeUtf8_6 253 191 128 128 128 128));
        (2147221504 =? (rawDecodeUtf8_6 253 191 191 128 128 128));
        (2147479552 =? (rawDecodeUtf8_6 253 191 191 191 128 128));
        (2147483584 =? (rawDecodeUtf8_6 253 191 191 191 191 128));
        (2147483647 =? (rawDecodeUtf8_6 253 191 191 191 191 191))].
Example run_testDecodeUtf8_passes : all_true (run_testDecodeUtf8 (tables V16)) = true.
Proof. vm_cast_no_check (eq_refl true). Qed.

(* testEncodeUtf8, 6 checks *)
Definition run_testEncodeUtf8 (T : UnicodeTables) : outcome (list bool) :=
  let s1 := (@nil Z) ++ encodeUtf8 127 in
  let s2 := s1 ++ encodeUtf8 128 in
  let s3 := s2 ++ encodeUtf8 256 in
  let s4 := s3 ++ encodeUtf8 512 in
  let s5 := s4 ++ encodeUtf8 1024 in
  let s6 := s5 ++ encodeUtf8 1536 in
  let s7 := s6 ++ encodeUtf8 1792 in
  let s8 := s7 ++ encodeUtf8 1920 in
  let s9 := s8 ++ encodeUtf8 1984 in
  let s10 := s9 ++ encodeUtf8 2016 in
  let s11 := s10 ++ encodeUtf8 2032 in
  let s12 := s11 ++ encodeUtf8 2040 in
  let s13 := s12 ++ encodeUtf8 2044 in
  let s14 := s13 ++ encodeUtf8 2046 in
  let s15 := s14 ++ encodeUtf8 2047 in
  let s16 := s15 ++ encodeUtf8 4096 in
  let s17 := s16 ++ encodeUtf8 8192 in
  let s18 := s17 ++ encodeUtf8 16384 in
  let s19 := s18 ++ encodeUtf8 32768 in
  let s20 := s19 ++ encodeUtf8 49152 in
  let s21 := s20 ++ encodeUtf8 57344 in
  let s22 := s21 ++ encodeUtf8 61440 in
  let s23 := s22 ++ encodeUtf8 63488 in
  let s24 := s23 ++ encodeUtf8 64512 in
  let s25 := s24 ++ encodeUtf8 65024 in
  let s26 := s25 ++ encodeUtf8 65280 in
  let s27 := s26 ++ encodeUtf8 65408 in
  let s28 := s27 ++ encodeUtf8 65472 in
  let s29 := s28 ++ encodeUtf8 65504 in
  let s30 := s29 ++ encodeUtf8 65520 in
  let s31 := s30 ++ encodeUtf8 65528 in
  let s32 := s31 ++ encodeUtf8 65532 in
  let s33 := s32 ++ encodeUtf8 65534 in
  let s34 := s33 ++ encodeUtf8 65535 in
  let s35 := s34 ++ encodeUtf8 65536 in
  let s36 := s35 ++ encodeUtf8 131072 in
  let s37 := s36 ++ encodeUtf8 262144 in
  let s38 := s37 ++ encodeUtf8 524288 in
  let s39 := s38 ++ encodeUtf8 1048576 in
  let s40 := s39 ++ encodeUtf8 1572864 in
  let s41 := s40 ++ encodeUtf8 1835008 in
  let s42 := s41 ++ encodeUtf8 1966080 in
  let s43 := s42 ++ encodeUtf8 2031616 in
  let s44 := s43 ++ encodeUtf8 2064384 in
  let s45 := s44 ++ encodeUtf8 2080768 in
  let s46 := s45 ++ encodeUtf8 2088960 in
  let s47 := s46 ++ encodeUtf8 2093056 in
  let s48 := s47 ++ encodeUtf8 2095104 in
  let s49 := s48 ++ encodeUtf8 2096128 in
  let s50 := s49 ++ encodeUtf8 2096640 in
  let s51 := s50 ++ encodeUtf8 2096896 in
  let s52 := s51 ++ encodeUtf8 2097024 in
  let s53 := s52 ++ encodeUtf8 2097088 in
  let s54 := s53 ++ encodeUtf8 2097120 in
  let s55 := s54 ++ encodeUtf8 2097136 in
  let s56 := s55 ++ encodeUtf8 2097144 in
  let s57 := s56 ++ encodeUtf8 2097148 in
  let s58 := s57 ++ encodeUtf8 2097150 in
  let s59 := s58 ++ encodeUtf8 2097151 in
  let s60 := s59 ++ encodeUtf8 2097152 in
  let s61 := s60 ++ encodeUtf8 4194304 in
  let s62 := s61 ++ encodeUtf8 8388608 in
  let s63 := s62 ++ encodeUtf8 16777216 in
  let s64 := s63 ++ encodeUtf8 33554432 in
  let s65 := s64 ++ encodeUtf8 50331648 in
  let s66 := s65 ++ encodeUtf8 58720256 in
  let s67 := s66 ++ encodeUtf8 62914560 in
  let s68 := s67 ++ encodeUtf8 65011712 in
  let s69 := s68 ++ encodeUtf8 66060288 in
  let s70 := s69 ++ encodeUtf8 66584576 in
  let s71 := s70 ++ encodeUtf8 66846720 in
  let s72 := s71 ++ encodeUtf8 67104768 in
  let s73 := s72 ++ encodeUtf8 67108863 in
  let s74 := s73 ++ encodeUtf8 67108864 in
  let s75 := s74 ++ encodeUtf8 134217728 in
  let s76 := s75 ++ encodeUtf8 268435456 in
  let s77 := s76 ++ encodeUtf8 536870912 in
  let s78 := s77 ++ encodeUtf8 1073741824 in
  let s79 := s78 ++ encodeUtf8 1610612736 in
  let s80 := s79 ++ encodeUtf8 1879048192 in
  let s81 := s80 ++ encodeUtf8 2130706432 in
  let s82 := s81 ++ encodeUtf8 2147221504 in
  let s83 := s82 ++ encodeUtf8 2147479552 in
  let s84 := s83 ++ encodeUtf8 2147483584 in
  let s85 := s84 ++ encodeUtf8 2147483647 in
  Done [(0 =? (if list_eqb (upto0 (s1 ++ [0])) (upto0 [127; 0]) then 0 else 1));
        (0 =? (if list_eqb (upto0 (s15 ++ [0])) (upto0 [127; 194; 128; 196; 128; 200; 128; 208; 128; 216; 128; 220; 128; 222; 128; 223; 128; 223; 160; 223; 176; 223; 184; 223; 188; 223; 190; 223; 191; 0]) then 0 else 1));
        (0 =? (if list_eqb (upto0 (s34 ++ [0])) (upto0 [127; 194; 128; 196; 128; 200; 128; 208; 128; 216; 128; 220; 128; 222; 128; 223; 128; 223; 160; 223; 176; 223; 184; 223; 188; 223; 190; 223; 191; 225; 128; 128; 226; 128; 128; 228; 128; 128; 232; 128; 128; 236; 128; 128; 238; 128; 128; 239; 128; 128; 239; 160; 128; 239; 176; 128; 239; 184; 128; 239; 188; 128; 239; 190; 128; 239; 191; 128; 239; 191; 160; 239; 191; 176; 239; 191; 184; 239; 191; 188; 239; 191; 190; 239; 191; 191; 0]) then 0 else 1));
        (0 =? (if list_eqb (upto0 (s59 ++ [0])) (upto0 [127; 194; 128; 196; 128; 200; 128; 208; 128; 216; 128; 220; 128; 222; 128; 223; 128; 223; 160; 223; 176; 223; 184; 223; 188; 223; 190; 223; 191; 225; 128; 128; 226; 128; 128; 228; 128; 128; 232; 128; 128; 236; 128; 128; 238; 128; 128; 239; 128; 128; 239; 160; 128; 239; 176; 128; 239; 184; 128; 239; 188; 128; 239; 190; 128; 239; 191; 128; 239; 191; 160; 239; 191; 176; 239; 191; 184; 239; 191; 188; 239; 191; 190; 239; 191; 191; 240; 144; 128; 128; 240; 160; 128; 128; 241; 128; 128; 128; 242; 128; 128; 128; 244; 128; 128; 128; 246; 128; 128; 128; 247; 128; 128; 128; 247; 160; 128; 128; 247; 176; 128; 128; 247; 184; 128; 128; 247; 188; 128; 128; 247; 190; 128; 128; 247; 191; 128; 128; 247; 191; 160; 128; 247; 191; 176; 128; 247; 191; 184; 128; 247; 191; 188; 128; 247; 191; 190; 128; 247; 191; 191; 128; 247; 191; 191; 160; 247; 191; 191; 176; 247; 191; 191; 184; 247; 191; 191; 188; 247; 191; 191; 190; 247; 191; 191; 191; 0]) then 0 else 1));
        (0 =? (if list_eqb (upto0 (s73 ++ [0])) (upto0 [127; 194; 128; 196; 128; 200; 128; 208; 128; 216; 128; 220; 128; 222; 128; 223; 128; 223; 160; 223; 176; 223; 184; 223; 188; 223; 190; 223; 191; 225; 128; 128; 226; 128; 128; 228; 128; 128; 232; 128; 128; 236; 128; 128; 238; 128; 128; 239; 128; 128; 239; 160; 128; 239; 176; 128; 239; 184; 128; 239; 188; 128; 239; 190; 128; 239; 191; 128; 239; 191; 160; 239; 191; 176; 239; 191; 184; 239; 191; 188; 239; 191; 190; 239; 191; 191; 240; 144; 128; 128; 240; 160; 128; 128; 241; 128; 128; 128; 242; 128; 128; 128; 244; 128; 128; 128; 246; 128; 128; 128; 247; 128; 128; 128; 247; 160; 128; 128; 247; 176; 128; 128; 247; 184; 128; 128; 247; 188; 128; 128; 247; 190; 128; 128; 247; 191; 128; 128; 247; 191; 160; 128; 247; 191; 176; 128; 247; 191; 184; 128; 247; 191; 188; 128; 247; 191; 190; 128; 247; 191; 191; 128; 247; 191; 191; 160; 247; 191; 191; 176; 247; 191; 191; 184; 247; 191; 191; 188; 247; 191; 191; 190; 247; 191; 191; 191; 248; 136; 128; 128; 128; 248; 144; 128; 128; 128; 248; 160; 128; 128; 128; 249; 128; 128; 128; 128; 250; 128; 128; 128; 128; 251; 128; 128; 128; 128; 251; 160; 128; 128; 128; 251; 176; 128; 128; 128; 251; 184; 128; 128; 128; 251; 188; 128; 128; 128; 251; 190; 128; 128; 128; 251; 191; 128; 128; 128; 251; 191; 191; 128; 128; 251; 191; 191; 191; 191; 0]) then 0 else 1));
        (0 =? (if list_eqb (upto0 (s85 ++ [0])) (upto0 [127; 194; 128; 196; 128; 200; 128; 208; 128; 216; 128; 220; 128; 222; 128; 223; 128; 223; 160; 223; 176; 223; 184; 223; 188; 223; 190; 223; 191; 225; 128; 128; 226; 128; 128; 228; 128; 128; 232; 128; 128; 236; 128; 128; 238; 128; 128; 239; 128; 128; 239; 160; 128; 239; 176; 128; 239; 184; 128; 239; 188; 128; 239; 190; 128; 239; 191; 128; 239; 191; 160; 239; 191; 176; 239; 191; 184; 239; 191; 188; 239; 191; 190; 239; 191; 191; 240; 144; 128; 128; 240; 160; 128; 128; 241; 128; 128; 128; 242; 128; 128; 128; 244; 128; 128; 128; 246; 128; 128; 128; 247; 128; 128; 128; 247; 160; 128; 128; 247; 176; 128; 128; 247; 184; 128; 128; 247; 188; 128; 128; 247; 190; 128; 128; 247; 191; 128; 128; 247; 191; 160; 128; 247; 191; 176; 128; 247; 191; 184; 128; 247; 191; 188; 128; 247; 191; 190; 128; 247; 191; 191; 128; 247; 191; 191; 160; 247; 191; 191; 176; 247; 191; 191; 184; 247; 191; 191; 188; 247; 191; 191; 190; 247; 191; 191; 191; 248; 136; 128; 128; 128; 248; 144; 128; 128; 128; 248; 160; 128; 128; 128; 249; 128; 128; 128; 128; 250; 128; 128; 128; 128; 251; 128; 128; 128; 128; 251; 160; 128; 128; 128; 251; 176; 128; 128; 128; 251; 184; 128; 128; 128; 251; 188; 128; 128; 128; 251; 190; 128; 128; 128; 251; 191; 128; 128; 128; 251; 191; 191; 128; 128; 251; 191; 191; 191; 191; 252; 132; 128; 128; 128; 128; 252; 136; 128; 128; 128; 128; 252; 144; 128; 128; 128; 128; 252; 160; 128; 128; 128; 128; 253; 128; 128; 128; 128; 128; 253; 160; 128; 128; 128; 128; 253; 176; 128; 128; 128; 128; 253; 191; 128; 128; 128; 128; 253; 191; 191; 128; 128; 128; 253; 191; 191; 191; 128; 128; 253; 191; 191; 191; 191; 128; 253; 191; 191; 191; 191; 191; 0]) then 0 else 1))].
Example run_testEncodeUtf8_passes : all_true (run_testEncodeUtf8 (tables V16)) = true.
Proof. vm_cast_no_check (eq_refl true). Qed.

(* testRawEncodeUtf16, 1 checks *)
Definition run_testRawEncodeUtf16 (T : UnicodeTables) : outcome (list bool) :=
  let s1 := (@nil Z) ++ rawEncodeUtf16 65535 in
  let s2 := s1 ++ rawEncodeUtf16 65536 in
  let s3 := s2 ++ rawEncodeUtf16 131072 in
  let s4 := s3 ++ rawEncodeUtf16 196608 in
  let s5 := s4 ++ rawEncodeUtf16 262144 in
  let s6 := s5 ++ rawEncodeUtf16 327680 in
  let s7 := s6 ++ rawEncodeUtf16 393216 in
  let s8 := s7 ++ rawEncodeUtf16 458752 in
  let s9 := s8 ++ rawEncodeUtf16 524288 in
  let s10 := s9 ++ rawEncodeUtf16 554580 in
  let s11 := s10 ++ rawEncodeUtf16 589824 in
  let s12 := s11 ++ rawEncodeUtf16 655360 in
  let s13 := s12 ++ rawEncodeUtf16 720896 in
  let s14 := s13 ++ rawEncodeUtf16 786432 in
  let s15 := s14 ++ rawEncodeUtf16 851968 in
  let s16 := s15 ++ rawEncodeUtf16 917504 in
  let s17 := s16 ++ rawEncodeUtf16 983040 in
  let s18 := s17 ++ rawEncodeUtf16 1048576 in
  let s19 := s18 ++ rawEncodeUtf16 1114111 in
  Done [(0 =? (if mem_eqb 38%nat (s19 ++ [0]) [65535; 55296; 56320; 55360; 56320; 55424; 56320; 55488; 56320; 55552; 56320; 55616; 56320; 55680; 56320; 55744; 56320; 55773; 56916; 55808; 56320; 55872; 56320; 55936; 56320; 56000; 56320; 56064; 56320; 56128; 56320; 56192; 56320; 56256; 56320; 56319; 57343; 0] then 0 else 1))].
Example run_testRawEncodeUtf16_passes : all_true (run_testRawEncodeUtf16 (tables V16)) = true.
Proof. vm_cast_no_check (eq_refl true). Qed.

(* testIsUtf8AsAscii, 6 checks *)
Definition run_testIsUtf8AsAscii (T : UnicodeTables) : outcome (list bool) :=
  do t1 <- isUtf8 T Null kAscii nullPredicate;
  do t2 <- isUtf8 T (At [0]) kAscii nullPredicate;
  do t3 <- isUtf8 T (c_str (@nil Z)) kAscii nullPredicate;
  do t4 <- isUtf8 T Null kFirstInvalidRange nullPredicate;
  do t5 <- isUtf8 T (At [84; 104; 105; 115; 32; 105; 115; 32; 97; 32; 115; 116; 114; 105; 110; 103; 32; 116; 104; 97; 116; 32; 119; 105; 108; 108; 32; 112; 97; 115; 115; 46; 0]) kAscii nullPredicate;
  do t6 <- isUtf8 T (At [84; 104; 105; 115; 32; 105; 115; 32; 195; 164; 32; 115; 116; 114; 105; 110; 103; 32; 116; 104; 97; 116; 32; 119; 105; 108; 108; 32; 110; 111; 116; 32; 112; 97; 115; 115; 46; 0]) kAscii nullPredicate;
  Done [t1;
        t2;
        t3;
        (negb t4);
        t5;
        (negb t6)].
Example run_testIsUtf8AsAscii_passes : forallb (fun V => all_true (run_testIsUtf8AsAscii (tables V))) [V7; V8; V9; V10; V11; V12; V13; V14; V15; V16] = true.
Proof. vm_cast_no_check (eq_refl true). Qed.

(* testIsUtf8AsUtf8, 17 checks *)
Definition run_testIsUtf8AsUtf8 (T : UnicodeTables) : outcome (list bool) :=
  do t1 <- isUtf8 T (At [84; 104; 105; 115; 32; 105; 115; 32; 195; 164; 32; 115; 116; 114; 105; 110; 103; 32; 116; 104; 97; 116; 32; 119; 105; 108; 108; 32; 110; 111; 116; 32; 112; 97; 115; 115; 46; 0]) kUtf8 nullPredicate;
  do t2 <- isUtf8 T (At [84; 104; 105; 115; 32; 195; 164; 32; 115; 116; 114; 105; 110; 103; 32; 228; 171; 136; 32; 119; 105; 108; 108; 32; 242; 129; 130; 131; 32; 99; 101; 114; 116; 97; 105; 110; 108; 121; 32; 249; 132; 133; 134; 135; 32; 112; 97; 115; 115; 32; 253; 161; 162; 163; 164; 165; 0]) kUtf8 nullPredicate;
  do t3 <- isUtf8 T (At [84; 104; 105; 115; 32; 195; 164; 32; 115; 116; 114; 105; 110; 103; 32; 228; 171; 136; 32; 119; 105; 108; 108; 32; 242; 129; 130; 131; 32; 99; 101; 114; 116; 97; 105; 110; 108; 121; 32; 249; 132; 133; 134; 135; 32; 112; 97; 115; 115; 32; 253; 161; 162; 163; 164; 0]) kUtf8 nullPredicate;
  do t4 <- isUtf8 T (At [84; 104; 105; 115; 32; 195; 164; 32; 115; 116; 114; 105; 110; 103; 32; 228; 171; 136; 32; 119; 105; 108; 108; 32; 242; 129; 130; 131; 32; 99; 101; 114; 116; 97; 105; 110; 108; 121; 32; 249; 132; 0]) kUtf8 nullPredicate;
  do t5 <- isUtf8 T (At [84; 104; 105; 115; 32; 195; 164; 32; 115; 116; 114; 105; 110; 103; 32; 228; 171; 136; 32; 119; 105; 108; 108; 32; 242; 129; 130; 0]) kUtf8 nullPredicate;
  do t6 <- isUtf8 T (At [84; 104; 105; 115; 32; 195; 164; 32; 115; 116; 114; 105; 110; 103; 32; 228; 171; 0]) kUtf8 nullPredicate;
  do t7 <- isUtf8 T (At [84; 104; 105; 115; 32; 195; 0]) kUtf8 nullPredicate;
  do t8 <- isUtf8 T (At [66; 97; 100; 32; 67; 48; 45; 68; 70; 32; 192; 32; 119; 105; 108; 108; 32; 102; 97; 105; 108; 46; 0]) kUtf8 nullPredicate;
  do t9 <- isUtf8 T (At [66; 97; 100; 32; 69; 48; 45; 69; 70; 32; 228; 171; 32; 119; 105; 108; 108; 32; 102; 97; 105; 108; 46; 0]) kUtf8 nullPredicate;
  do t10 <- isUtf8 T (At [66; 97; 100; 32; 70; 48; 45; 70; 55; 32; 242; 129; 130; 32; 119; 105; 108; 108; 32; 102; 97; 105; 108; 46; 0]) kUtf8 nullPredicate;
  do t11 <- isUtf8 T (At [66; 97; 100; 32; 70; 56; 45; 70; 66; 32; 249; 132; 32; 119; 105; 108; 108; 32; 102; 97; 105; 108; 46; 0]) kUtf8 nullPredicate;
  do t12 <- isUtf8 T (At [66; 97; 100; 32; 70; 67; 45; 70; 68; 32; 253; 161; 162; 32; 119; 105; 108; 108; 32; 102; 97; 105; 108; 0]) kUtf8 nullPredicate;
  do t13 <- isUtf8 T (At [84; 104; 105; 115; 32; 105; 115; 32; 111; 117; 116; 32; 111; 102; 32; 114; 97; 110; 103; 101; 32; 98; 117; 116; 32; 105; 116; 32; 99; 111; 117; 108; 100; 32; 98; 101; 32; 118; 97; 108; 105; 100; 58; 32; 254; 131; 190; 183; 139; 170; 152; 44; 32; 106; 117; 115; 116; 32; 110; 111; 116; 32; 121; 101; 116; 46; 0]) kUtf8 nullPredicate;
  do t14 <- isUtf8 T (At [67; 97; 110; 39; 116; 32; 100; 111; 32; 237; 168; 178; 32; 97; 108; 111; 110; 101; 46; 0]) kUtf8 nullPredicate;
  do t15 <- isUtf8 T (At [67; 97; 110; 39; 116; 32; 100; 111; 32; 237; 184; 178; 32; 97; 108; 111; 110; 101; 46; 0]) kUtf8 nullPredicate;
  do t16 <- isUtf8 T (At [67; 97; 110; 32; 100; 111; 32; 237; 168; 178; 237; 184; 178; 32; 116; 111; 103; 101; 116; 104; 101; 114; 46; 0]) kUtf8 nullPredicate;
  do t17 <- isUtf8 T (At [67; 97; 110; 32; 100; 111; 32; 242; 144; 132; 178; 32; 97; 115; 32; 111; 110; 101; 46; 0]) kUtf8 nullPredicate;
  Done [t1;
        t2;
        t3;
        t4;
        t5;
        t6;
        t7;
        (negb t8);
        (negb t9);
        (negb t10);
        (negb t11);
        (negb t12);
        (negb t13);
        (negb t14);
        (negb t15);
        t16;
        t17].
Example run_testIsUtf8AsUtf8_passes : forallb (fun V => all_true (run_testIsUtf8AsUtf8 (tables V))) [V7; V8; V9; V10; V11; V12; V13; V14; V15; V16] = true.
Proof. vm_cast_no_check (eq_refl true). Qed.

(* testIsUtf8AsUcs2, 10 checks *)
Definition run_testIsUtf8AsUcs2 (T : UnicodeTables) : outcome (list bool) :=
  do t1 <- isUtf8 T (At [84; 104; 105; 115; 32; 195; 164; 32; 115; 116; 114; 105; 110; 103; 32; 228; 171; 136; 32; 119; 105; 108; 108; 32; 242; 129; 130; 131; 32; 99; 101; 114; 116; 97; 105; 110; 108; 121; 32; 249; 132; 133; 134; 135; 32; 112; 97; 115; 115; 32; 253; 161; 162; 163; 164; 165; 0]) kUcs2 nullPredicate;
  do t2 <- isUtf8 T (At [84; 104; 105; 115; 32; 195; 164; 32; 115; 116; 114; 105; 110; 103; 32; 228; 171; 136; 32; 119; 105; 108; 108; 32; 242; 129; 130; 131; 32; 99; 101; 114; 116; 97; 105; 110; 108; 121; 32; 249; 132; 133; 134; 135; 32; 112; 97; 115; 115; 46; 0]) kUcs2 nullPredicate;
  do t3 <- isUtf8 T (At [84; 104; 105; 115; 32; 195; 164; 32; 115; 116; 114; 105; 110; 103; 32; 228; 171; 136; 32; 119; 105; 108; 108; 32; 242; 129; 130; 131; 32; 99; 101; 114; 116; 97; 105; 110; 108; 121; 46; 0]) kUcs2 nullPredicate;
  do t4 <- isUtf8 T (At [84; 104; 105; 115; 32; 195; 164; 32; 115; 116; 114; 105; 110; 103; 32; 228; 171; 136; 32; 119; 105; 108; 108; 46; 0]) kUcs2 nullPredicate;
  do t5 <- isUtf8 T (At [84; 104; 105; 115; 32; 253; 161; 162; 163; 164; 0]) kUcs2 nullPredicate;
  do t6 <- isUtf8 T (At [84; 104; 105; 115; 32; 249; 132; 0]) kUcs2 nullPredicate;
  do t7 <- isUtf8 T (At [84; 104; 105; 115; 32; 242; 129; 130; 0]) kUcs2 nullPredicate;
  do t8 <- isUtf8 T (At [84; 104; 105; 115; 32; 195; 164; 32; 115; 116; 114; 105; 110; 103; 32; 228; 171; 0]) kUcs2 nullPredicate;
  do t9 <- isUtf8 T (At [84; 104; 105; 115; 32; 195; 0]) kUcs2 nullPredicate;
  do t10 <- isUtf8 T (At [67; 97; 110; 32; 100; 111; 32; 237; 168; 178; 237; 184; 178; 32; 116; 111; 103; 101; 116; 104; 101; 114; 46; 0]) kUcs2 nullPredicate;
  Done [(negb t1);
        (negb t2);
        (negb t3);
        t4;
        (negb t5);
        (negb t6);
        (negb t7);
        t8;
        t9;
        (negb t10)].
Example run_testIsUtf8AsUcs2_passes : forallb (fun V => all_true (run_testIsUtf8AsUcs2 (tables V))) [V7; V8; V9; V10; V11; V12; V13; V14; V15; V16] = true.
Proof. vm_cast_no_check (eq_refl true). Qed.

(* testIsUtf8AsUtf16, 10 checks *)
Definition run_testIsUtf8AsUtf16 (T : UnicodeTables) : outcome (list bool) :=
  do t1 <- isUtf8 T (At [84; 104; 105; 115; 32; 195; 164; 32; 115; 116; 114; 105; 110; 103; 32; 228; 171; 136; 32; 119; 105; 108; 108; 32; 242; 129; 130; 131; 32; 99; 101; 114; 116; 97; 105; 110; 108; 121; 32; 249; 132; 133; 134; 135; 32; 112; 97; 115; 115; 32; 253; 161; 162; 163; 164; 165; 0]) kUtf16 nullPredicate;
  do t2 <- isUtf8 T (At [84; 104; 105; 115; 32; 195; 164; 32; 115; 116; 114; 105; 110; 103; 32; 228; 171; 136; 32; 119; 105; 108; 108; 32; 242; 129; 130; 131; 32; 99; 101; 114; 116; 97; 105; 110; 108; 121; 32; 249; 132; 133; 134; 135; 32; 112; 97; 115; 115; 46; 0]) kUtf16 nullPredicate;
  do t3 <- isUtf8 T (At [84; 104; 105; 115; 32; 195; 164; 32; 115; 116; 114; 105; 110; 103; 32; 228; 171; 136; 32; 119; 105; 108; 108; 32; 242; 129; 130; 131; 32; 99; 101; 114; 116; 97; 105; 110; 108; 121; 46; 0]) kUtf16 nullPredicate;
  do t4 <- isUtf8 T (At [84; 104; 105; 115; 32; 195; 164; 32; 115; 116; 114; 105; 110; 103; 32; 228; 171; 136; 32; 119; 105; 108; 108; 46; 0]) kUtf16 nullPredicate;
  do t5 <- isUtf8 T (At [84; 104; 105; 115; 32; 253; 161; 162; 163; 164; 0]) kUtf16 nullPredicate;
  do t6 <- isUtf8 T (At [84; 104; 105; 115; 32; 249; 132; 0]) kUtf16 nullPredicate;
  do t7 <- isUtf8 T (At [84; 104; 105; 115; 32; 242; 129; 130; 0]) kUtf16 nullPredicate;
  do t8 <- isUtf8 T (At [84; 104; 105; 115; 32; 195; 164; 32; 115; 116; 114; 105; 110; 103; 32; 228; 171; 0]) kUtf16 nullPredicate;
  do t9 <- isUtf8 T (At [84; 104; 105; 115; 32; 195; 0]) kUtf16 nullPredicate;
  do t10 <- isUtf8 T (At [67; 97; 110; 32; 100; 111; 32; 237; 168; 178; 237; 184; 178; 32; 116; 111; 103; 101; 116; 104; 101; 114; 46; 0]) kUtf16 nullPredicate;
  Done [(negb t1);
        (negb t2);
        t3;
        t4;
        (negb t5);
        (negb t6);
        t7;
        t8;
        t9;
        t10].
Example run_testIsUtf8AsUtf16_passes : forallb (fun V => all_true (run_testIsUtf8AsUtf16 (tables V))) [V7; V8; V9; V10; V11; V12; V13; V14; V15; V16] = true.
Proof. vm_cast_no_check (eq_refl true). Qed.

(* testIsUtf8AsUcs4, 11 checks *)
Definition run_testIsUtf8AsUcs4 (T : UnicodeTables) : outcome (list bool) :=
  do t1 <- isUtf8 T (At [84; 104; 105; 115; 32; 195; 164; 32; 115; 116; 114; 105; 110; 103; 32; 228; 171; 136; 32; 119; 105; 108; 108; 32; 242; 129; 130; 131; 32; 99; 101; 114; 116; 97; 105; 110; 108; 121; 32; 249; 132; 133; 134; 135; 32; 112; 97; 115; 115; 32; 253; 161; 162; 163; 164; 165; 0]) kUcs4 nullPredicate;
  do t2 <- isUtf8 T (At [84; 104; 105; 115; 32; 195; 164; 32; 115; 116; 114; 105; 110; 103; 32; 228; 171; 136; 32; 119; 105; 108; 108; 32; 242; 129; 130; 131; 32; 99; 101; 114; 116; 97; 105; 110; 108; 121; 32; 249; 132; 133; 134; 135; 32; 112; 97; 115; 115; 46; 0]) kUcs4 nullPredicate;
  do t3 <- isUtf8 T (At [84; 104; 105; 115; 32; 195; 164; 32; 115; 116; 114; 105; 110; 103; 32; 228; 171; 136; 32; 119; 105; 108; 108; 32; 242; 129; 130; 131; 32; 99; 101; 114; 116; 97; 105; 110; 108; 121; 46; 0]) kUcs4 nullPredicate;
  do t4 <- isUtf8 T (At [84; 104; 105; 115; 32; 195; 164; 32; 115; 116; 114; 105; 110; 103; 32; 228; 171; 136; 32; 119; 105; 108; 108; 46; 0]) kUcs4 nullPredicate;
  do t5 <- isUtf8 T (At [84; 104; 105; 115; 32; 253; 161; 162; 163; 164; 0]) kUcs4 nullPredicate;
  do t6 <- isUtf8 T (At [84; 104; 105; 115; 32; 249; 132; 0]) kUcs4 nullPredicate;
  do t7 <- isUtf8 T (At [84; 104; 105; 115; 32; 242; 129; 130; 0]) kUcs4 nullPredicate;
  do t8 <- isUtf8 T (At [84; 104; 105; 115; 32; 195; 164; 32; 115; 116; 114; 105; 110; 103; 32; 228; 171; 0]) kUcs4 nullPredicate;
  do t9 <- isUtf8 T (At [84; 104; 105; 115; 32; 195; 0]) kUcs4 nullPredicate;
  do t10 <- isUtf8 T (At [67; 97; 110; 32; 100; 111; 32; 237; 168; 178; 237; 184; 178; 32; 116; 111; 103; 101; 116; 104; 101; 114; 46; 0]) kUcs4 nullPredicate;
  do t11 <- isUtf8 T (At [67; 97; 110; 32; 100; 111; 32; 242; 173; 168; 178; 32; 116; 111; 103; 101; 116; 104; 101; 114; 46; 0]) kUcs4 nullPredicate;
  Done [t1;
        t2;
        t3;
        t4;
        t5;
        t6;
        t7;
        t8;
        t9;
        t10;
        t11].
Example run_testIsUtf8AsUcs4_passes : forallb (fun V => all_true (run_testIsUtf8AsUcs4 (tables V))) [V7; V8; V9; V10; V11; V12; V13; V14; V15; V16] = true.
Proof. vm_cast_no_check (eq_refl true). Qed.

(* testIsUtf8AsUnicode, 13 checks *)
Definition run_testIsUtf8AsUnicode (T : UnicodeTables) : outcome (list bool) :=
  do t1 <- isUtf8 T (At [84; 104; 105; 115; 32; 195; 164; 32; 115; 116; 114; 105; 110; 103; 32; 228; 171; 136; 32; 119; 105; 108; 108; 32; 242; 129; 130; 131; 32; 99; 101; 114; 116; 97; 105; 110; 108; 121; 32; 249; 132; 133; 134; 135; 32; 112; 97; 115; 115; 32; 253; 161; 162; 163; 164; 165; 0]) kUnicode nullPredicate;
  do t2 <- isUtf8 T (At [84; 104; 105; 115; 32; 195; 164; 32; 115; 116; 114; 105; 110; 103; 32; 228; 171; 136; 32; 119; 105; 108; 108; 32; 242; 129; 130; 131; 32; 99; 101; 114; 116; 97; 105; 110; 108; 121; 32; 249; 132; 133; 134; 135; 32; 112; 97; 115; 115; 46; 0]) kUnicode nullPredicate;
  do t3 <- isUtf8 T (At [84; 104; 105; 115; 32; 195; 164; 32; 115; 116; 114; 105; 110; 103; 32; 228; 171; 136; 32; 119; 105; 108; 108; 32; 242; 129; 130; 131; 32; 99; 101; 114; 116; 97; 105; 110; 108; 121; 46; 0]) kUnicode nullPredicate;
  do t4 <- isUtf8 T (At [84; 104; 105; 115; 32; 195; 164; 32; 115; 116; 114; 105; 110; 103; 32; 228; 171; 136; 32; 119; 105; 108; 108; 46; 0]) kUnicode nullPredicate;
  do t5 <- isUtf8 T (At [84; 104; 105; 115; 32; 253; 161; 162; 163; 164; 0]) kUnicode nullPredicate;
  do t6 <- isUtf8 T (At [84; 104; 105; 115; 32; 249; 132; 0]) kUnicode nullPredicate;
  do t7 <- isUtf8 T (At [84; 104; 105; 115; 32; 242; 129; 130; 0]) kUnicode nullPredicate;
  do t8 <- isUtf8 T (At [84; 104; 105; 115; 32; 195; 164; 32; 115; 116; 114; 105; 110; 103; 32; 228; 171; 0]) kUnicode nullPredicate;
  do t9 <- isUtf8 T (At [84; 104; 105; 115; 32; 195; 0]) kUnicode nullPredicate;
  do t10 <- isUtf8 T (At [67; 97; 110; 32; 100; 111; 32; 237; 168; 178; 237; 184; 178; 32; 116; 111; 103; 101; 116; 104; 101; 114; 46; 0]) kUnicode nullPredicate;
  do t11 <- isUtf8 T (At [67; 97; 110; 32; 100; 111; 32; 242; 173; 168; 178; 32; 116; 111; 103; 101; 116; 104; 101; 114; 46; 0]) kUnicode nullPredicate;
  do t12 <- isUtf8 T (At [67; 97; 110; 32; 100; 111; 32; 244; 143; 191; 191; 0]) kUnicode nullPredicate;
  do t13 <- isUtf8 T (At [67; 97; 110; 110; 111; 116; 32; 100; 111; 32; 244; 144; 128; 128; 0]) kUnicode nullPredicate;
  Done [(negb t1);
        (negb t2);
        t3;
        t4;
        (negb t5);
        (negb t6);
        t7;
        t8;
        t9;
        t10;
        t11;
        t12;
        (negb t13)].
Example run_testIsUtf8AsUnicode_passes : forallb (fun V => all_true (run_testIsUtf8AsUnicode (tables V))) [V7; V8; V9; V10; V11; V12; V13; V14; V15; V16] = true.
Proof. vm_cast_no_check (eq_refl true). Qed.

(* testIsUtf8LengthTerminated, 41 checks *)
Definition run_testIsUtf8LengthTerminated (T : UnicodeTables) : outcome (list bool) :=
  do t1 <- isUtf8 T (At [84; 104; 105; 115; 32; 195; 164; 32; 115; 116; 114; 105; 110; 103; 32; 228; 171; 136; 32; 119; 105; 108; 108; 32; 242; 129; 130; 131; 32; 99; 101; 114; 116; 97; 105; 110; 108; 121; 32; 249; 132; 133; 134; 135; 32; 112; 97; 115; 115; 32; 253; 161; 162; 163; 164; 165; 0]) kUtf8 nullPredicate;
  do t2 <- isUtf8_length T (At [84; 104; 105; 115; 32; 195; 164; 32; 115; 116; 114; 105; 110; 103; 32; 228; 171; 136; 32; 119; 105; 108; 108; 32; 242; 129; 130; 131; 32; 99; 101; 114; 116; 97; 105; 110; 108; 121; 32; 249; 132; 133; 134; 135; 32; 112; 97; 115; 115; 32; 253; 161; 162; 163; 164; 165; 0]) 56 nullPredicate;
  do t3 <- isUtf8_length T (At [84; 0; 105; 115; 32; 195; 164; 32; 115; 116; 114; 105; 110; 103; 32; 228; 171; 136; 32; 119; 105; 108; 108; 32; 242; 129; 130; 131; 32; 99; 101; 114; 116; 97; 105; 110; 108; 121; 32; 249; 132; 133; 134; 135; 32; 112; 97; 115; 115; 32; 253; 161; 162; 163; 164; 165; 0]) 56 nullPredicate;
  do t4 <- isUtf8_length T (At [104; 105; 115; 32; 195; 164; 32; 115; 116; 114; 105; 110; 103; 32; 228; 171; 136; 32; 119; 105; 108; 108; 32; 242; 129; 130; 131; 32; 99; 101; 114; 116; 97; 105; 110; 108; 121; 32; 249; 132; 133; 134; 135; 32; 112; 97; 115; 115; 32; 253; 161; 162; 163; 164; 165; 0]) 55 nullPredicate;
  do t5 <- isUtf8_length T (At [105; 115; 32; 195; 164; 32; 115; 116; 114; 105; 110; 103; 32; 228; 171; 136; 32; 119; 105; 108; 108; 32; 242; 129; 130; 131; 32; 99; 101; 114; 116; 97; 105; 110; 108; 121; 32; 249; 132; 133; 134; 135; 32; 112; 97; 115; 115; 32; 253; 161; 162; 163; 164; 165; 0]) 54 nullPredicate;
  do t6 <- isUtf8_length T (At [115; 32; 195; 164; 32; 115; 116; 114; 105; 110; 103; 32; 228; 171; 136; 32; 119; 105; 108; 108; 32; 242; 129; 130; 131; 32; 99; 101; 114; 116; 97; 105; 110; 108; 121; 32; 249; 132; 133; 134; 135; 32; 112; 97; 115; 115; 32; 253; 161; 162; 163; 164; 165; 0]) 53 nullPredicate;
  do t7 <- isUtf8_length T (At [32; 195; 164; 32; 115; 116; 114; 105; 110; 103; 32; 228; 171; 136; 32; 119; 105; 108; 108; 32; 242; 129; 130; 131; 32; 99; 101; 114; 116; 97; 105; 110; 108; 121; 32; 249; 132; 133; 134; 135; 32; 112; 97; 115; 115; 32; 253; 161; 162; 163; 164; 165; 0]) 52 nullPredicate;
  do t8 <- isUtf8_length T (At [195; 164; 32; 115; 116; 114; 105; 110; 103; 32; 228; 171; 136; 32; 119; 105; 108; 108; 32; 242; 129; 130; 131; 32; 99; 101; 114; 116; 97; 105; 110; 108; 121; 32; 249; 132; 133; 134; 135; 32; 112; 97; 115; 115; 32; 253; 161; 162; 163; 164; 165; 0]) 51 nullPredicate;
  do t9 <- isUtf8_length T (At [164; 32; 115; 116; 114; 105; 110; 103; 32; 228; 171; 136; 32; 119; 105; 108; 108; 32; 242; 129; 130; 131; 32; 99; 101; 114; 116; 97; 105; 110; 108; 121; 32; 249; 132; 133; 134; 135; 32; 112; 97; 115; 115; 32; 253; 161; 162; 163; 164; 165; 0]) 50 nullPredicate;
  do t10 <- isUtf8_length T (At [84; 104; 105; 115; 32; 195; 164; 32; 115; 116; 114; 105; 110; 103; 32; 228; 171; 136; 32; 119; 105; 108; 108; 32; 242; 129; 130; 131; 32; 99; 101; 114; 116; 97; 105; 110; 108; 121; 32; 249; 132; 133; 134; 135; 32; 112; 97; 115; 115; 32; 253; 161; 162; 163; 164; 165; 0]) 55 nullPredicate;
  do t11 <- isUtf8_length T (At [84; 104; 105; 115; 32; 195; 164; 32; 115; 116; 114; 105; 110; 103; 32; 228; 171; 136; 32; 119; 105; 108; 108; 32; 242; 129; 130; 131; 32; 99; 101; 114; 116; 97; 105; 110; 108; 121; 32; 249; 132; 133; 134; 135; 32; 112; 97; 115; 115; 32; 253; 161; 162; 163; 164; 165; 0]) 54 nullPredicate;
  do t12 <- isUtf8_length T (At [84; 104; 105; 115; 32; 195; 164; 32; 115; 116; 114; 105; 110; 103; 32; 228; 171; 136; 32; 119; 105; 108; 108; 32; 242; 129; 130; 131; 32; 99; 101; 114; 116; 97; 105; 110; 108; 121; 32; 249; 132; 133; 134; 135; 32; 112; 97; 115; 115; 32; 253; 161; 162; 163; 164; 165; 0]) 53 nullPredicate;
  do t13 <- isUtf8_length T (At [84; 104; 105; 115; 32; 195; 164; 32; 115; 116; 114; 105; 110; 103; 32; 228; 171; 136; 32; 119; 105; 108; 108; 32; 242; 129; 130; 131; 32; 99; 101; 114; 116; 97; 105; 110; 108; 121; 32; 249; 132; 133; 134; 135; 32; 112; 97; 115; 115; 32; 253; 161; 162; 163; 164; 165; 0]) 52 nullPredicate;
  do t14 <- isUtf8_length T (At [84; 104; 105; 115; 32; 195; 164; 32; 115; 116; 114; 105; 110; 103; 32; 228; 171; 136; 32; 119; 105; 108; 108; 32; 242; 129; 130; 131; 32; 99; 101; 114; 116; 97; 105; 110; 108; 121; 32; 249; 132; 133; 134; 135; 32; 112; 97; 115; 115; 32; 253; 161; 162; 163; 164; 165; 0]) 51 nullPredicate;
  do t15 <- isUtf8_length T (At [84; 104; 105; 115; 32; 195; 164; 32; 115; 116; 114; 105; 110; 103; 32; 228; 171; 136; 32; 119; 105; 108; 108; 32; 242; 129; 130; 131; 32; 99; 101; 114; 116; 97; 105; 110; 108; 121; 32; 249; 132; 133; 134; 135; 32; 112; 97; 115; 115; 32; 253; 161; 162; 163; 164; 165; 0]) 50 nullPredicate;
  do t16 <- isUtf8_length T (At [195; 164; 32; 115; 116; 114; 105; 110; 103; 32; 228; 171; 136; 32; 119; 105; 108; 108; 32; 242; 129; 130; 131; 32; 99; 101; 114; 116; 97; 105; 110; 108; 121; 32; 249; 132; 133; 134; 135; 32; 112; 97; 115; 115; 32; 253; 161; 162; 163; 164; 165; 0]) 1 nullPredicate;
  do t17 <- isUtf8_length T (At [164; 32; 115; 116; 114; 105; 110; 103; 32; 228; 171; 136; 32; 119; 105; 108; 108; 32; 242; 129; 130; 131; 32; 99; 101; 114; 116; 97; 105; 110; 108; 121; 32; 249; 132; 133; 134; 135; 32; 112; 97; 115; 115; 32; 253; 161; 162; 163; 164; 165; 0]) 1 nullPredicate;
  do t18 <- isUtf8_length T (At [67; 97; 110; 32; 100; 111; 32; 237; 168; 178; 237; 184; 178; 32; 116; 111; 103; 101; 116; 104; 101; 114; 46; 0]) 23 nullPredicate;
  do t19 <- isUtf8_length T (At [97; 110; 32; 100; 111; 32; 237; 168; 178; 237; 184; 178; 32; 116; 111; 103; 101; 116; 104; 101; 114; 46; 0]) 1 nullPredicate;
  do t20 <- isUtf8_length T (At [110; 32; 100; 111; 32; 237; 168; 178; 237; 184; 178; 32; 116; 111; 103; 101; 116; 104; 101; 114; 46; 0]) 1 nullPredicate;
  do t21 <- isUtf8_length T (At [32; 100; 111; 32; 237; 168; 178; 237; 184; 178; 32; 116; 111; 103; 101; 116; 104; 101; 114; 46; 0]) 1 nullPredicate;
  do t22 <- isUtf8_length T (At [100; 111; 32; 237; 168; 178; 237; 184; 178; 32; 116; 111; 103; 101; 116; 104; 101; 114; 46; 0]) 1 nullPredicate;
  do t23 <- isUtf8_length T (At [111; 32; 237; 168; 178; 237; 184; 178; 32; 116; 111; 103; 101; 116; 104; 101; 114; 46; 0]) 1 nullPredicate;
  do t24 <- isUtf8_length T (At [32; 237; 168; 178; 237; 184; 178; 32; 116; 111; 103; 101; 116; 104; 101; 114; 46; 0]) 1 nullPredicate;
  do t25 <- isUtf8_length T (At [237; 168; 178; 237; 184; 178; 32; 116; 111; 103; 101; 116; 104; 101; 114; 46; 0]) 1 nullPredicate;
  do t26 <- isUtf8_length T (At [237; 168; 178; 237; 184; 178; 32; 116; 111; 103; 101; 116; 104; 101; 114; 46; 0]) 2 nullPredicate;
  do t27 <- isUtf8_length T (At [237; 168; 178; 237; 184; 178; 32; 116; 111; 103; 101; 116; 104; 101; 114; 46; 0]) 3 nullPredicate;
  do t28 <- isUtf8_length T (At [168; 178; 237; 184; 178; 32; 116; 111; 103; 101; 116; 104; 101; 114; 46; 0]) 1 nullPredicate;
  do t29 <- isUtf8_length T (At [178; 237; 184; 178; 32; 116; 111; 103; 101; 116; 104; 101; 114; 46; 0]) 1 nullPredicate;
  do t30 <- isUtf8_length T (At [237; 184; 178; 32; 116; 111; 103; 101; 116; 104; 101; 114; 46; 0]) 1 nullPredicate;
  do t31 <- isUtf8_length T (At [237; 184; 178; 32; 116; 111; 103; 101; 116; 104; 101; 114; 46; 0]) 2 nullPredicate;
  do t32 <- isUtf8_length T (At [237; 184; 178; 32; 116; 111; 103; 101; 116; 104; 101; 114; 46; 0]) 3 nullPredicate;
  do t33 <- isUtf8_length T (At [184; 178; 32; 116; 111; 103; 101; 116; 104; 101; 114; 46; 0]) 1 nullPredicate;
  do t34 <- isUtf8_length T (At [178; 32; 116; 111; 103; 101; 116; 104; 101; 114; 46; 0]) 1 nullPredicate;
  do t35 <- isUtf8_length T (At [32; 116; 111; 103; 101; 116; 104; 101; 114; 46; 0]) 1 nullPredicate;
  do t36 <- isUtf8_length T (At [116; 111; 103; 101; 116; 104; 101; 114; 46; 0]) 1 nullPredicate;
  do t37 <- isUtf8_length T (At [111; 103; 101; 116; 104; 101; 114; 46; 0]) 1 nullPredicate;
  do t38 <- isUtf8_length T (At [103; 101; 116; 104; 101; 114; 46; 0]) 1 nullPredicate;
  do t39 <- isUtf8_length T (At [101; 116; 104; 101; 114; 46; 0]) 1 nullPredicate;
  do t40 <- isUtf8_length T (At [116; 104; 101; 114; 46; 0]) 1 nullPredicate;
  do t41 <- isUtf8_length T (At [104; 101; 114; 46; 0]) 1 nullPredicate;
  Done [t1;
        t2;
        (negb t3);
        t4;
        t5;
        t6;
        t7;
        t8;
        (negb t9);
        t10;
        t11;
        t12;
        t13;
        t14;
        t15;
        t16;
        (negb t17);
        t18;
        t19;
        t20;
        t21;
        t22;
        t23;
        t24;
        t25;
        t26;
        t27;
        (negb t28);
        (negb t29);
        t30;
        (negb t31);
        (negb t32);
        (negb t33);
        (negb t34);
        t35;
        t36;
        t37;
        t38;
        t39;
        t40;
        t41].
Example run_testIsUtf8LengthTerminated_passes : forallb (fun V => all_true (run_testIsUtf8LengthTerminated (tables V))) [V7; V8; V9; V10; V11; V12; V13; V14; V15; V16] = true.
Proof. vm_cast_no_check (eq_refl true). Qed.

(* testIsUcs2AsAscii, 6 checks *)
Definition run_testIsUcs2AsAscii (T : UnicodeTables) : outcome (list bool) :=
  do t1 <- isUcs2 T Null kAscii nullPredicate;
  do t2 <- isUcs2 T (At [0]) kAscii nullPredicate;
  do t3 <- isUcs2 T (c_str (@nil Z)) kAscii nullPredicate;
  do t4 <- isUcs2 T Null kFirstInvalidRange nullPredicate;
  do t5 <- isUcs2 T (At [78; 111; 119; 32; 105; 115; 32; 116; 104; 101; 32; 116; 105; 109; 101; 32; 102; 111; 114; 32; 97; 108; 108; 32; 103; 111; 111; 100; 32; 109; 101; 110; 32; 116; 111; 32; 99; 111; 109; 101; 32; 116; 111; 32; 116; 104; 101; 32; 97; 105; 100; 32; 111; 102; 32; 116; 104; 101; 32; 112; 97; 114; 116; 121; 46; 0]) kAscii nullPredicate;
  do t6 <- isUcs2 T (At [78; 246; 119; 32; 105; 115; 32; 116; 104; 101; 32; 116; 105; 109; 101; 32; 102; 111; 114; 32; 97; 108; 108; 32; 103; 111; 111; 100; 32; 109; 101; 110; 32; 116; 111; 32; 99; 111; 109; 101; 32; 116; 111; 32; 116; 104; 101; 32; 97; 105; 100; 32; 111; 102; 32; 116; 104; 101; 32; 112; 97; 114; 116; 121; 46; 0]) kAscii nullPredicate;
  Done [t1;
        t2;
        t3;
        (negb t4);
        t5;
        (negb t6)].
Example run_testIsUcs2AsAscii_passes : forallb (fun V => all_true (run_testIsUcs2AsAscii (tables V))) [V7; V8; V9; V10; V11; V12; V13; V14; V15; V16] = true.
Proof. vm_cast_no_check (eq_refl true). Qed.

(* testIsUcs2AsUtf8, 1 checks *)
Definition run_testIsUcs2AsUtf8 (T : UnicodeTables) : outcome (list bool) :=
  do t1 <- isUcs2 T (At [117; 110; 100; 32; 97; 108; 108; 101; 114; 45; 109; 252; 109; 115; 105; 285; 101; 32; 66; 117; 114; 103; 45; 103; 111; 118; 101; 110; 32; 100; 105; 101; 32; 109; 111; 104; 109; 101; 110; 32; 82; 228; 116; 104; 39; 32; 97; 117; 115; 103; 114; 97; 98; 101; 110; 46; 0]) kUtf8 nullPredicate;
  Done [t1].
Example run_testIsUcs2AsUtf8_passes : forallb (fun V => all_true (run_testIsUcs2AsUtf8 (tables V))) [V7; V8; V9; V10; V11; V12; V13; V14; V15; V16] = true.
Proof. vm_cast_no_check (eq_refl true). Qed.

(* testIsUcs2AsUcs2, 4 checks *)
Definition run_testIsUcs2AsUcs2 (T : UnicodeTables) : outcome (list bool) :=
  do t1 <- isUcs2 T (At [257; 262; 355; 160; 324; 337; 373; 160; 8230; 0]) kUcs2 nullPredicate;
  do t2 <- isUcs2 T (At [257; 262; 355; 160; 55296; 337; 373; 160; 8230; 0]) kUcs2 nullPredicate;
  do t3 <- isUcs2 T (At [257; 262; 355; 160; 55347; 56361; 337; 373; 160; 8230; 0]) kUcs2 nullPredicate;
  do t4 <- isUcs2 T (At [257; 262; 355; 160; 56361; 337; 373; 160; 8230; 0]) kUcs2 nullPredicate;
  Done [t1;
        (negb t2);
        (negb t3);
        (negb t4)].
Example run_testIsUcs2AsUcs2_passes : forallb (fun V => all_true (run_testIsUcs2AsUcs2 (tables V))) [V7; V8; V9; V10; V11; V12; V13; V14; V15; V16] = true.
Proof. vm_cast_no_check (eq_refl true). Qed.

(* testIsUcs2AsUtf16, 4 checks *)
Definition run_testIsUcs2AsUtf16 (T : UnicodeTables) : outcome (list bool) :=
  do t1 <- isUcs2 T (At [257; 262; 355; 160; 324; 337; 373; 160; 8230; 0]) kUtf16 nullPredicate;
  do t2 <- isUcs2 T (At [257; 262; 355; 160; 55296; 337; 373; 160; 8230; 0]) kUtf16 nullPredicate;
  do t3 <- isUcs2 T (At [257; 262; 355; 160; 55347; 56361; 337; 373; 160; 8230; 0]) kUtf16 nullPredicate;
  do t4 <- isUcs2 T (At [257; 262; 355; 160; 56361; 337; 373; 160; 8230; 0]) kUtf16 nullPredicate;
  Done [t1;
        (negb t2);
        (negb t3);
        (negb t4)].
Example run_testIsUcs2AsUtf16_passes : forallb (fun V => all_true (run_testIsUcs2AsUtf16 (tables V))) [V7; V8; V9; V10; V11; V12; V13; V14; V15; V16] = true.
Proof. vm_cast_no_check (eq_refl true). Qed.

(* testIsUcs2AsUcs4, 4 checks *)
Definition run_testIsUcs2AsUcs4 (T : UnicodeTables) : outcome (list bool) :=
  do t1 <- isUcs2 T (At [257; 262; 355; 160; 324; 337; 373; 160; 8230; 0]) kUcs4 nullPredicate;
  do t2 <- isUcs2 T (At [257; 262; 355; 160; 55296; 337; 373; 160; 8230; 0]) kUcs4 nullPredicate;
  do t3 <- isUcs2 T (At [257; 262; 355; 160; 55347; 56361; 337; 373; 160; 8230; 0]) kUcs4 nullPredicate;
  do t4 <- isUcs2 T (At [257; 262; 355; 160; 56361; 337; 373; 160; 8230; 0]) kUcs4 nullPredicate;
  Done [t1;
        (negb t2);
        (negb t3);
        (negb t4)].
Example run_testIsUcs2AsUcs4_passes : forallb (fun V => all_true (run_testIsUcs2AsUcs4 (tables V))) [V7; V8; V9; V10; V11; V12; V13; V14; V15; V16] = true.
Proof. vm_cast_no_check (eq_refl true). Qed.

(* testIsUcs2AsUnicode, 4 checks *)
Definition run_testIsUcs2AsUnicode (T : UnicodeTables) : outcome (list bool) :=
  do t1 <- isUcs2 T (At [257; 262; 355; 160; 324; 337; 373; 160; 8230; 0]) kUnicode nullPredicate;
  do t2 <- isUcs2 T (At [257; 262; 355; 160; 55296; 337; 373; 160; 8230; 0]) kUnicode nullPredicate;
  do t3 <- isUcs2 T (At [257; 262; 355; 160; 55347; 56361; 337; 373; 160; 8230; 0]) kUnicode nullPredicate;
  do t4 <- isUcs2 T (At [257; 262; 355; 160; 56361; 337; 373; 160; 8230; 0]) kUnicode nullPredicate;
  Done [t1;
        (negb t2);
        (negb t3);
        (negb t4)].
Example run_testIsUcs2AsUnicode_passes : forallb (fun V => all_true (run_testIsUcs2AsUnicode (tables V))) [V7; V8; V9; V10; V11; V12; V13; V14; V15; V16] = true.
Proof. vm_cast_no_check (eq_refl true). Qed.

(* testIsUtf16AsAscii, 7 checks *)
Definition run_testIsUtf16AsAscii (T : UnicodeTables) : outcome (list bool) :=
  do t1 <- isUtf16 T Null kAscii nullPredicate;
  do t2 <- isUtf16 T (At [0]) kAscii nullPredicate;
  do t3 <- isUcs2 T (c_str (@nil Z)) kAscii nullPredicate;
  do t4 <- isUtf16 T Null kFirstInvalidRange nullPredicate;
  do t5 <- isUtf16 T (At [78; 111; 119; 32; 105; 115; 32; 116; 104; 101; 32; 116; 105; 109; 101; 32; 102; 111; 114; 32; 97; 108; 108; 32; 103; 111; 111; 100; 32; 109; 101; 110; 32; 116; 111; 32; 99; 111; 109; 101; 32; 116; 111; 32; 116; 104; 101; 32; 97; 105; 100; 32; 111; 102; 32; 116; 104; 101; 32; 112; 97; 114; 116; 121; 46; 0]) kAscii nullPredicate;
  do t6 <- isUtf16 T (At [78; 246; 119; 32; 105; 115; 32; 116; 104; 101; 32; 116; 105; 109; 101; 32; 102; 111; 114; 32; 97; 108; 108; 32; 103; 111; 111; 100; 32; 109; 101; 110; 32; 116; 111; 32; 99; 111; 109; 101; 32; 116; 111; 32; 116; 104; 101; 32; 97; 105; 100; 32; 111; 102; 32; 116; 104; 101; 32; 112; 97; 114; 116; 121; 46; 0]) kAscii nullPredicate;
  do t7 <- isUtf16 T (At [78; 246; 119; 32; 105; 115; 32; 116; 104; 101; 32; 116; 105; 109; 101; 32; 102; 111; 114; 32; 97; 108; 108; 32; 103; 111; 111; 55858; 56724; 32; 109; 101; 110; 32; 116; 111; 32; 99; 111; 109; 101; 32; 116; 111; 32; 116; 104; 101; 32; 97; 105; 100; 32; 111; 102; 32; 116; 104; 101; 32; 112; 97; 114; 116; 121; 46; 0]) kAscii nullPredicate;
  Done [t1;
        t2;
        t3;
        (negb t4);
        t5;
        (negb t6);
        (negb t7)].
Example run_testIsUtf16AsAscii_passes : forallb (fun V => all_true (run_testIsUtf16AsAscii (tables V))) [V7; V8; V9; V10; V11; V12; V13; V14; V15; V16] = true.
Proof. vm_cast_no_check (eq_refl true). Qed.

(* testIsUtf16AsUtf8, 1 checks *)
Definition run_testIsUtf16AsUtf8 (T : UnicodeTables) : outcome (list bool) :=
  do t1 <- isUtf16 T (At [117; 110; 100; 32; 97; 108; 108; 101; 114; 45; 109; 252; 109; 115; 105; 285; 101; 32; 66; 117; 114; 103; 45; 103; 111; 118; 101; 110; 32; 100; 105; 101; 32; 109; 111; 104; 109; 101; 110; 55858; 56724; 32; 82; 228; 116; 104; 39; 32; 97; 117; 115; 103; 114; 97; 98; 101; 110; 46; 0]) kUtf8 nullPredicate;
  Done [t1].
Example run_testIsUtf16AsUtf8_passes : forallb (fun V => all_true (run_testIsUtf16AsUtf8 (tables V))) [V7; V8; V9; V10; V11; V12; V13; V14; V15; V16] = true.
Proof. vm_cast_no_check (eq_refl true). Qed.

(* testIsUtf16AsUcs2, 4 checks *)
Definition run_testIsUtf16AsUcs2 (T : UnicodeTables) : outcome (list bool) :=
  do t1 <- isUtf16 T (At [257; 262; 355; 160; 324; 337; 373; 160; 8230; 0]) kUcs2 nullPredicate;
  do t2 <- isUtf16 T (At [257; 262; 355; 160; 55296; 337; 373; 160; 8230; 0]) kUcs2 nullPredicate;
  do t3 <- isUtf16 T (At [257; 262; 355; 160; 55347; 56361; 337; 373; 160; 8230; 0]) kUcs2 nullPredicate;
  do t4 <- isUtf16 T (At [257; 262; 355; 160; 56361; 337; 373; 160; 8230; 0]) kUcs2 nullPredicate;
  Done [t1;
        (negb t2);
        (negb t3);
        (negb t4)].
Example run_testIsUtf16AsUcs2_passes : forallb (fun V => all_true (run_testIsUtf16AsUcs2 (tables V))) [V7; V8; V9; V10; V11; V12; V13; V14; V15; V16] = true.
Proof. vm_cast_no_check (eq_refl true). Qed.

(* testIsUtf16AsUtf16, 4 checks *)
Definition run_testIsUtf16AsUtf16 (T : UnicodeTables) : outcome (list bool) :=
  do t1 <- isUtf16 T (At [257; 262; 355; 160; 55996; 57005; 324; 337; 373; 160; 8230; 0]) kUtf16 nullPredicate;
  do t2 <- isUtf16 T (At [257; 262; 355; 160; 55296; 337; 373; 160; 8230; 0]) kUtf16 nullPredicate;
  do t3 <- isUtf16 T (At [257; 262; 355; 160; 55347; 56361; 337; 373; 160; 8230; 0]) kUtf16 nullPredicate;
  do t4 <- isUtf16 T (At [257; 262; 355; 160; 56361; 337; 373; 160; 8230; 0]) kUtf16 nullPredicate;
  Done [t1;
        (negb t2);
        t3;
        (negb t4)].
Example run_testIsUtf16AsUtf16_passes : forallb (fun V => all_true (run_testIsUtf16AsUtf16 (tables V))) [V7; V8; V9; V10; V11; V12; V13; V14; V15; V16] = true.
Proof. vm_cast_no_check (eq_refl true). Qed.

(* testIsUtf16AsUcs4, 4 checks *)
Definition run_testIsUtf16AsUcs4 (T : UnicodeTables) : outcome (list bool) :=
  do t1 <- isUtf16 T (At [257; 262; 355; 160; 55996; 57005; 324; 337; 373; 160; 8230; 0]) kUcs4 nullPredicate;
  do t2 <- isUtf16 T (At [257; 262; 355; 160; 55296; 337; 373; 160; 8230; 0]) kUcs4 nullPredicate;
  do t3 <- isUtf16 T (At [257; 262; 355; 160; 55347; 56361; 337; 373; 160; 8230; 0]) kUcs4 nullPredicate;
  do t4 <- isUtf16 T (At [257; 262; 355; 160; 56361; 337; 373; 160; 8230; 0]) kUcs4 nullPredicate;
  Done [t1;
        (negb t2);
        t3;
        (negb t4)].
Example run_testIsUtf16AsUcs4_passes : forallb (fun V => all_true (run_testIsUtf16AsUcs4 (tables V))) [V7; V8; V9; V10; V11; V12; V13; V14; V15; V16] = true.
Proof. vm_cast_no_check (eq_refl true). Qed.

(* testIsUtf16AsUnicode, 4 checks *)
Definition run_testIsUtf16AsUnicode (T : UnicodeTables) : outcome (list bool) :=
  do t1 <- isUtf16 T (At [257; 262; 355; 160; 55996; 57005; 324; 337; 373; 160; 8230; 0]) kUnicode nullPredicate;
  do t2 <- isUtf16 T (At [257; 262; 355; 160; 55296; 337; 373; 160; 8230; 0]) kUnicode nullPredicate;
  do t3 <- isUtf16 T (At [257; 262; 355; 160; 55347; 56361; 337; 373; 160; 8230; 0]) kUnicode nullPredicate;
  do t4 <- isUtf16 T (At [257; 262; 355; 160; 56361; 337; 373; 160; 8230; 0]) kUnicode nullPredicate;
  Done [t1;
        (negb t2);
        t3;
        (negb t4)].
Example run_testIsUtf16AsUnicode_passes : forallb (fun V => all_true (run_testIsUtf16AsUnicode (tables V))) [V7; V8; V9; V10; V11; V12; V13; V14; V15; V16] = true.
Proof. vm_cast_no_check (eq_refl true). Qed.

(* testIsUcs4AsAscii, 7 checks *)
Definition run_testIsUcs4AsAscii (T : UnicodeTables) : outcome (list bool) :=
  do t1 <- isUcs4 T Null kAscii nullPredicate;
  do t2 <- isUcs4 T (At [0]) kAscii nullPredicate;
  do t3 <- isUcs4 T (c_str (@nil Z)) kAscii nullPredicate;
  do t4 <- isUcs4 T Null kFirstInvalidRange nullPredicate;
  do t5 <- isUcs4 T (At [78; 111; 119; 32; 105; 115; 32; 116; 104; 101; 32; 116; 105; 109; 101; 32; 102; 111; 114; 32; 97; 108; 108; 32; 103; 111; 111; 100; 32; 109; 101; 110; 32; 116; 111; 32; 99; 111; 109; 101; 32; 116; 111; 32; 116; 104; 101; 32; 97; 105; 100; 32; 111; 102; 32; 116; 104; 101; 32; 112; 97; 114; 116; 121; 46; 0]) kAscii nullPredicate;
  do t6 <- isUcs4 T (At [78; 246; 119; 32; 105; 115; 32; 116; 104; 101; 32; 116; 105; 109; 101; 32; 102; 111; 114; 32; 97; 108; 108; 32; 103; 111; 111; 100; 32; 109; 101; 110; 32; 116; 111; 32; 99; 111; 109; 101; 32; 116; 111; 32; 116; 104; 101; 32; 97; 105; 100; 32; 111; 102; 32; 116; 104; 101; 32; 112; 97; 114; 116; 121; 46; 0]) kAscii nullPredicate;
  do t7 <- isUcs4 T (At [78; 246; 119; 32; 105; 115; 32; 116; 104; 101; 32; 116; 105; 109; 101; 32; 102; 111; 114; 32; 97; 108; 108; 32; 103; 111; 111; 711218; 32; 109; 101; 110; 32; 116; 111; 32; 99; 111; 109; 101; 32; 116; 111; 32; 116; 104; 101; 32; 97; 105; 100; 32; 111; 102; 32; 116; 104; 101; 32; 112; 97; 114; 116; 121; 46; 0]) kAscii nullPredicate;
  Done [t1;
        t2;
        t3;
        (negb t4);
        t5;
        (negb t6);
        (negb t7)].
Example run_testIsUcs4AsAscii_passes : forallb (fun V => all_true (run_testIsUcs4AsAscii (tables V))) [V7; V8; V9; V10; V11; V12; V13; V14; V15; V16] = true.
Proof. vm_cast_no_check (eq_refl true). Qed.

(* testIsUcs4AsUtf8, 1 checks *)
Definition run_testIsUcs4AsUtf8 (T : UnicodeTables) : outcome (list bool) :=
  do t1 <- isUcs4 T (At [117; 110; 100; 32; 97; 108; 108; 101; 114; 45; 109; 252; 109; 115; 105; 285; 101; 32; 66; 117; 114; 103; 45; 103; 111; 118; 101; 110; 32; 100; 105; 101; 32; 109; 111; 104; 109; 101; 110; 711218; 32; 82; 228; 116; 104; 39; 32; 97; 117; 115; 103; 114; 97; 98; 101; 110; 46; 0]) kUtf8 nullPredicate;
  Done [t1].
Example run_testIsUcs4AsUtf8_passes : forallb (fun V => all_true (run_testIsUcs4AsUtf8 (tables V))) [V7; V8; V9; V10; V11; V12; V13; V14; V15; V16] = true.
Proof. vm_cast_no_check (eq_refl true). Qed.

(* testIsUcs4AsUcs2, 5 checks *)
Definition run_testIsUcs4AsUcs2 (T : UnicodeTables) : outcome (list bool) :=
  do t1 <- isUcs4 T (At [257; 262; 355; 160; 324; 337; 373; 160; 8230; 0]) kUcs2 nullPredicate;
  do t2 <- isUcs4 T (At [257; 262; 355; 160; 55296; 337; 373; 160; 8230; 0]) kUcs2 nullPredicate;
  do t3 <- isUcs4 T (At [257; 262; 355; 160; 117801; 337; 373; 160; 8230; 0]) kUcs2 nullPredicate;
  do t4 <- isUcs4 T (At [257; 262; 355; 160; 56361; 337; 373; 160; 8230; 0]) kUcs2 nullPredicate;
  do t5 <- isUcs4 T (At [257; 262; 355; 160; 19465090; 337; 373; 160; 8230; 0]) kUcs2 nullPredicate;
  Done [t1;
        (negb t2);
        (negb t3);
        (negb t4);
        (negb t5)].
Example run_testIsUcs4AsUcs2_passes : forallb (fun V => all_true (run_testIsUcs4AsUcs2 (tables V))) [V7; V8; V9; V10; V11; V12; V13; V14; V15; V16] = true.
Proof. vm_cast_no_check (eq_refl true). Qed.

(* testIsUcs4AsUtf16, 5 checks *)
Definition run_testIsUcs4AsUtf16 (T : UnicodeTables) : outcome (list bool) :=
  do t1 <- isUcs4 T (At [257; 262; 355; 160; 783005; 324; 337; 373; 160; 8230; 0]) kUtf16 nullPredicate;
  do t2 <- isUcs4 T (At [257; 262; 355; 160; 55296; 337; 373; 160; 8230; 0]) kUtf16 nullPredicate;
  do t3 <- isUcs4 T (At [257; 262; 355; 160; 55347; 56361; 337; 373; 160; 8230; 0]) kUtf16 nullPredicate;
  do t4 <- isUcs4 T (At [257; 262; 355; 160; 56361; 337; 373; 160; 8230; 0]) kUtf16 nullPredicate;
  do t5 <- isUcs4 T (At [257; 262; 355; 160; 19465090; 337; 373; 160; 8230; 0]) kUtf16 nullPredicate;
  Done [t1;
        (negb t2);
        (negb t3);
        (negb t4);
        (negb t5)].
Example run_testIsUcs4AsUtf16_passes : forallb (fun V => all_true (run_testIsUcs4AsUtf16 (tables V))) [V7; V8; V9; V10; V11; V12; V13; V14; V15; V16] = true.
Proof. vm_cast_no_check (eq_refl true). Qed.

(* testIsUcs4AsUcs4, 5 checks *)
Definition run_testIsUcs4AsUcs4 (T : UnicodeTables) : outcome (list bool) :=
  do t1 <- isUcs4 T (At [257; 262; 355; 160; 783005; 324; 337; 373; 160; 8230; 0]) kUcs4 nullPredicate;
  do t2 <- isUcs4 T (At [257; 262; 355; 160; 55296; 337; 373; 160; 8230; 0]) kUcs4 nullPredicate;
  do t3 <- isUcs4 T (At [257; 262; 355; 160; 55347; 56361; 337; 373; 160; 8230; 0]) kUcs4 nullPredicate;
  do t4 <- isUcs4 T (At [257; 262; 355; 160; 56361; 337; 373; 160; 8230; 0]) kUcs4 nullPredicate;
  do t5 <- isUcs4 T (At [257; 262; 355; 160; 19465090; 337; 373; 160; 8230; 0]) kUcs4 nullPredicate;
  Done [t1;
        (negb t2);
        (negb t3);
        (negb t4);
        t5].
Example run_testIsUcs4AsUcs4_passes : forallb (fun V => all_true (run_testIsUcs4AsUcs4 (tables V))) [V7; V8; V9; V10; V11; V12; V13; V14; V15; V16] = true.
Proof. vm_cast_no_check (eq_refl true). Qed.

(* testIsUcs4AsUnicode, 5 checks *)
Definition run_testIsUcs4AsUnicode (T : UnicodeTables) : outcome (list bool) :=
  do t1 <- isUcs4 T (At [257; 262; 355; 160; 783005; 324; 337; 373; 160; 8230; 0]) kUnicode nullPredicate;
  do t2 <- isUcs4 T (At [257; 262; 355; 160; 55296; 337; 373; 160; 8230; 0]) kUnicode nullPredicate;
  do t3 <- isUcs4 T (At [257; 262; 355; 160; 55347; 56361; 337; 373; 160; 8230; 0]) kUnicode nullPredicate;
  do t4 <- isUcs4 T (At [257; 262; 355; 160; 56361; 337; 373; 160; 8230; 0]) kUnicode nullPredicate;
  do t5 <- isUcs4 T (At [257; 262; 355; 160; 19465090; 337; 373; 160; 8230; 0]) kUnicode nullPredicate;
  Done [t1;
        (negb t2);
        (negb t3);
        (negb t4);
        (negb t5)].
Example run_testIsUcs4AsUnicode_passes : forallb (fun V => all_true (run_testIsUcs4AsUnicode (tables V))) [V7; V8; V9; V10; V11; V12; V13; V14; V15; V16] = true.
Proof. vm_cast_no_check (eq_refl true). Qed.

(* testToUtf8NOPLikes, 6 checks *)
Definition run_testToUtf8NOPLikes (T : UnicodeTables) : outcome (list bool) :=
  do t1 <- toUtf8_cp Null kSrcUnicode;
  do t2 <- toUtf8_cp (At [0]) kSrcUnicode;
  do t3 <- toUtf8_cp (At [84; 104; 101; 32; 113; 117; 105; 99; 107; 32; 98; 114; 111; 119; 110; 32; 102; 111; 120; 32; 101; 116; 99; 46; 0]) 54554;
  do t4 <- toUtf8_cp (At [84; 104; 101; 32; 113; 117; 105; 99; 107; 32; 98; 114; 111; 119; 110; 32; 102; 111; 120; 32; 101; 116; 99; 46; 0]) kSrcUnicode;
  do t5 <- toUtf8_cp (At [84; 104; 101; 32; 113; 117; 105; 99; 107; 32; 98; 114; 111; 119; 110; 32; 102; 111; 120; 32; 101; 116; 99; 46; 0]) kSrcCP1252;
  do t6 <- toUtf8_cp (At [84; 104; 101; 32; 113; 117; 105; 99; 107; 32; 98; 114; 111; 119; 110; 32; 102; 111; 120; 32; 101; 116; 99; 46; 0]) kSrcCP1250;
  Done [(match t1 with [] => true | _ => false end);
        (match t2 with [] => true | _ => false end);
        (match t3 with [] => true | _ => false end);
        (negb (match t4 with [] => true | _ => false end));
        (negb (match t5 with [] => true | _ => false end));
        (negb (match t6 with [] => true | _ => false end))].
Example run_testToUtf8NOPLikes_passes : all_true (run_testToUtf8NOPLikes (tables V16)) = true.
Proof. vm_cast_no_check (eq_refl true). Qed.

(* testToUtf8From16Bit, 6 checks *)
Definition run_testToUtf8From16Bit (T : UnicodeTables) : outcome (list bool) :=
  do t1 <- toUtf8_16 Null;
  do t2 <- toUtf8_16 (At [0]);
  do t3 <- toUtf8_16 (At [4660; 9029; 13398; 17767; 22136; 26505; 0]);
  do t4 <- toUtf8_16 (At [72; 101; 108; 108; 111; 33; 32; 55296; 56320; 0]);
  dos t5 <- basic_string (At [72; 101; 108; 108; 111; 33; 32; 55296; 56320; 0]);
  do t6 <- toUtf8_16 (c_str t5);
  do t7 <- toUtf8_16 (At [72; 101; 108; 108; 111; 33; 32; 55296; 32; 0]);
  Done [(match t1 with [] => true | _ => false end);
        (match t2 with [] => true | _ => false end);
        (0 =? (if list_eqb (upto0 [225; 136; 180; 226; 141; 133; 227; 145; 150; 228; 149; 167; 229; 153; 184; 230; 158; 137; 0]) (upto0 (t3 ++ [0])) then 0 else 1));
        (0 =? (if list_eqb (upto0 [72; 101; 108; 108; 111; 33; 32; 240; 144; 128; 128; 0]) (upto0 (t4 ++ [0])) then 0 else 1));
        (list_eqb t4 t6);
        (match t7 with [] => true | _ => false end)].
Example run_testToUtf8From16Bit_passes : all_true (run_testToUtf8From16Bit (tables V16)) = true.
Proof. vm_cast_no_check (eq_refl true). Qed.

(* testToUtf8From32Bit, 7 checks *)
Definition run_testToUtf8From32Bit (T : UnicodeTables) : outcome (list bool) :=
  do t1 <- toUtf8_32 Null;
  do t2 <- toUtf8_32 (At [0]);
  do t3 <- toUtf8_32 (At [305406789; 878069095; 1450731401; 102; 111; 111; 32; 102; 111; 111; 32; 102; 111; 111; 0]);
  do t4 <- toUtf8_32 (At [80; 108; 117; 55296; 56320; 103; 104; 33; 0]);
  do t5 <- toUtf8_32 (At [80; 108; 117; 55296; 103; 104; 33; 0]);
  do t6 <- toUtf8_32 (At [80; 108; 117; 103; 104; 33; 55296; 0]);
  do t7 <- toUtf8_32 (At [65; 800; 4128; 66048; 16909060; 1079009392; 0]);
  Done [(match t1 with [] => true | _ => false end);
        (match t2 with [] => true | _ => false end);
        (0 =? (if list_eqb (upto0 [252; 146; 141; 130; 141; 133; 252; 180; 149; 164; 149; 167; 253; 150; 158; 134; 158; 137; 102; 111; 111; 32; 102; 111; 111; 32; 102; 111; 111; 0]) (upto0 (t3 ++ [0])) then 0 else 1));
        (match t4 with [] => true | _ => false end);
        (match t5 with [] => true | _ => false end);
        (match t6 with [] => true | _ => false end);
        ((Z.of_nat (length (upto0 [65; 204; 160; 225; 128; 160; 240; 144; 136; 128; 248; 132; 130; 128; 176; 253; 128; 148; 134; 129; 176; 0]))) =? (Z.of_nat (length t7)))].
Example run_testToUtf8From32Bit_passes : all_true (run_testToUtf8From32Bit (tables V16)) = true.
Proof. vm_cast_no_check (eq_refl true). Qed.

(* testToUcs2From8Bit, 15 checks *)
Definition run_testToUcs2From8Bit (T : UnicodeTables) : outcome (list bool) :=
  do t1 <- toUcs2_8 (At [78; 111; 119; 32; 105; 115; 32; 116; 104; 101; 32; 116; 105; 109; 101; 32; 102; 111; 114; 32; 97; 108; 108; 32; 103; 111; 111; 100; 32; 109; 101; 110; 32; 116; 111; 32; 99; 111; 109; 101; 32; 116; 111; 32; 116; 104; 101; 32; 97; 105; 100; 32; 111; 102; 32; 116; 104; 101; 32; 112; 97; 114; 116; 121; 46; 0]);
  dos t2 <- basic_string (At [78; 111; 119; 32; 105; 115; 32; 116; 104; 101; 32; 116; 105; 109; 101; 32; 102; 111; 114; 32; 97; 108; 108; 32; 103; 111; 111; 100; 32; 109; 101; 110; 32; 116; 111; 32; 99; 111; 109; 101; 32; 116; 111; 32; 116; 104; 101; 32; 97; 105; 100; 32; 111; 102; 32; 116; 104; 101; 32; 112; 97; 114; 116; 121; 46; 0]);
  do t3 <- toUcs2_8 (c_str t2);
  do t4 <- toUcs2_8 (At [66; 101; 118; 111; 114; 32; 100; 105; 101; 32; 87; 101; 108; 116; 32; 103; 101; 115; 99; 104; 97; 102; 102; 101; 110; 32; 119; 195; 188; 114; 100; 101; 32; 119; 97; 114; 32; 100; 97; 115; 32; 87; 111; 114; 116; 32; 115; 99; 104; 111; 110; 32; 100; 97; 46; 0]);
  do t5 <- toUcs2_8 (At [79; 104; 32; 110; 101; 118; 101; 114; 32; 228; 133; 150; 32; 109; 105; 110; 100; 46; 228; 133; 150; 0]);
  do t6 <- toUcs2_8 (At [79; 104; 32; 110; 101; 118; 101; 114; 32; 228; 133; 150; 32; 109; 105; 110; 100; 46; 228; 133; 0; 0]);
  do t7 <- toUcs2_8 (At [83; 116; 114; 97; 105; 103; 104; 116; 32; 85; 84; 70; 45; 56; 32; 116; 111; 32; 116; 104; 105; 110; 103; 115; 32; 85; 84; 70; 49; 54; 32; 119; 111; 117; 108; 100; 32; 101; 115; 99; 97; 112; 101; 58; 32; 241; 130; 129; 128; 0]);
  do t8 <- toUcs2_8 (At [85; 84; 70; 45; 56; 32; 111; 102; 32; 85; 84; 70; 45; 49; 54; 32; 116; 111; 32; 116; 104; 105; 110; 103; 115; 32; 85; 84; 70; 49; 54; 32; 119; 111; 117; 108; 100; 32; 101; 115; 99; 97; 112; 101; 58; 32; 240; 144; 128; 128; 242; 135; 176; 176; 0]);
  do t9 <- toUcs2_8 (At [53; 45; 98; 121; 116; 101; 32; 101; 115; 99; 97; 112; 101; 58; 32; 249; 183; 166; 149; 132; 0]);
  do t10 <- toUcs2_8 (At [54; 45; 98; 121; 116; 101; 32; 101; 115; 99; 97; 112; 101; 58; 32; 253; 183; 166; 149; 132; 131; 0]);
  do t11 <- toUcs2_8 (At [50; 45; 98; 121; 116; 101; 32; 192; 32; 98; 97; 100; 46; 0]);
  do t12 <- toUcs2_8 (At [51; 45; 98; 121; 116; 101; 32; 227; 137; 32; 98; 97; 100; 46; 0]);
  do t13 <- toUcs2_8 (At [52; 45; 98; 121; 116; 101; 32; 240; 137; 152; 32; 98; 97; 100; 46; 0]);
  Done [((Z.of_nat (length (upto0 [78; 111; 119; 32; 105; 115; 32; 116; 104; 101; 32; 116; 105; 109; 101; 32; 102; 111; 114; 32; 97; 108; 108; 32; 103; 111; 111; 100; 32; 109; 101; 110; 32; 116; 111; 32; 99; 111; 109; 101; 32; 116; 111; 32; 116; 104; 101; 32; 97; 105; 100; 32; 111; 102; 32; 116; 104; 101; 32; 112; 97; 114; 116; 121; 46; 0]))) =? (Z.of_nat (length t1)));
        (0 =? (if mem_eqb 66%nat [78; 111; 119; 32; 105; 115; 32; 116; 104; 101; 32; 116; 105; 109; 101; 32; 102; 111; 114; 32; 97; 108; 108; 32; 103; 111; 111; 100; 32; 109; 101; 110; 32; 116; 111; 32; 99; 111; 109; 101; 32; 116; 111; 32; 116; 104; 101; 32; 97; 105; 100; 32; 111; 102; 32; 116; 104; 101; 32; 112; 97; 114; 116; 121; 46; 0] (t1 ++ [0]) then 0 else 1));
        (list_eqb t1 t3);
        (((Z.of_nat (length (upto0 [66; 101; 118; 111; 114; 32; 100; 105; 101; 32; 87; 101; 108; 116; 32; 103; 101; 115; 99; 104; 97; 102; 102; 101; 110; 32; 119; 195; 188; 114; 100; 101; 32; 119; 97; 114; 32; 100; 97; 115; 32; 87; 111; 114; 116; 32; 115; 99; 104; 111; 110; 32; 100; 97; 46; 0]))) - 1) =? (Z.of_nat (length t4)));
        (0 =? (if mem_eqb 55%nat [66; 101; 118; 111; 114; 32; 100; 105; 101; 32; 87; 101; 108; 116; 32; 103; 101; 115; 99; 104; 97; 102; 102; 101; 110; 32; 119; 252; 114; 100; 101; 32; 119; 97; 114; 32; 100; 97; 115; 32; 87; 111; 114; 116; 32; 115; 99; 104; 111; 110; 32; 100; 97; 46; 0] (t4 ++ [0]) then 0 else 1));
        (((Z.of_nat (length (upto0 [79; 104; 32; 110; 101; 118; 101; 114; 32; 228; 133; 150; 32; 109; 105; 110; 100; 46; 228; 133; 150; 0]))) - 4) =? (Z.of_nat (length t5)));
        (0 =? (if mem_eqb 18%nat [79; 104; 32; 110; 101; 118; 101; 114; 32; 16726; 32; 109; 105; 110; 100; 46; 16726; 0] (t5 ++ [0]) then 0 else 1));
        (((Z.of_nat (length t6)) + 1) =? (Z.of_nat (length t5)));
        (match t7 with [] => true | _ => false end);
        (match t8 with [] => true | _ => false end);
        (match t9 with [] => true | _ => false end);
        (match t10 with [] => true | _ => false end);
        (match t11 with [] => true | _ => false end);
        (match t12 with [] => true | _ => false end);
        (match t13 with [] => true | _ => false end)].
Example run_testToUcs2From8Bit_passes : all_true (run_testToUcs2From8Bit (tables V16)) = true.
Proof. vm_cast_no_check (eq_refl true). Qed.

(* testToUcs2From32Bit, 6 checks *)
Definition run_testToUcs2From32Bit (T : UnicodeTables) : outcome (list bool) :=
  do t1 <- toUcs2_32 (At [78; 111; 119; 32; 105; 115; 32; 116; 104; 101; 32; 116; 290; 4933; 105; 109; 101; 0]);
  dos t2 <- basic_string (At [78; 111; 119; 32; 105; 115; 32; 116; 104; 101; 32; 116; 290; 4933; 105; 109; 101; 0]);
  do t3 <- toUcs2_32 (c_str t2);
  do t4 <- toUcs2_32 (At [78; 111; 119; 32; 105; 115; 32; 116; 104; 101; 32; 116; 1053509; 105; 109; 101; 0]);
  do t5 <- toUcs2_32 (At [78; 111; 119; 32; 105; 115; 32; 116; 104; 101; 32; 116; 56260; 57157; 105; 109; 101; 0]);
  do t6 <- toUcs2_32 (At [78; 111; 119; 32; 105; 115; 32; 116; 104; 101; 32; 116; 56260; 105; 109; 101; 0]);
  do t7 <- toUcs2_32 (At [22; 130; 2100; 32000; 655360; 1577524; 19088743; 876893525; 0]);
  Done [(0 =? (if mem_eqb (Z.to_nat ((((Z.of_nat (length t1)) + 1) + 1) / 2)) [78; 111; 119; 32; 105; 115; 32; 116; 104; 101; 32; 116; 290; 4933; 105; 109; 101; 0] (t1 ++ [0]) then 0 else 1));
        (list_eqb t1 t3);
        (match t4 with [] => true | _ => false end);
        (match t5 with [] => true | _ => false end);
        (match t6 with [] => true | _ => false end);
        (match t7 with [] => true | _ => false end)].
Example run_testToUcs2From32Bit_passes : all_true (run_testToUcs2From32Bit (tables V16)) = true.
Proof. vm_cast_no_check (eq_refl true). Qed.

(* testToUtf16From8Bit, 18 checks *)
Definition run_testToUtf16From8Bit (T : UnicodeTables) : outcome (list bool) :=
  do t1 <- toUtf16_8 Null;
  do t2 <- toUtf16_8 (c_str (@nil Z));
  do t3 <- toUtf16_8 (At [78; 111; 119; 32; 105; 115; 32; 116; 104; 101; 32; 116; 105; 109; 101; 32; 102; 111; 114; 32; 97; 108; 108; 32; 103; 111; 111; 100; 32; 109; 101; 110; 32; 116; 111; 32; 99; 111; 109; 101; 32; 116; 111; 32; 116; 104; 101; 32; 97; 105; 100; 32; 111; 102; 32; 116; 104; 101; 32; 112; 97; 114; 116; 121; 46; 0]);
  do t4 <- toUtf16_8 (At [66; 101; 118; 111; 114; 32; 100; 105; 101; 32; 87; 101; 108; 116; 32; 103; 101; 115; 99; 104; 97; 102; 102; 101; 110; 32; 119; 195; 188; 114; 100; 101; 32; 119; 97; 114; 32; 100; 97; 115; 32; 87; 111; 114; 116; 32; 115; 99; 104; 111; 110; 32; 100; 97; 46; 0]);
  do t5 <- toUtf16_8 (At [79; 104; 32; 110; 101; 118; 101; 114; 32; 228; 133; 150; 32; 109; 105; 110; 100; 46; 0]);
  do t6 <- toUtf16_8 (At [83; 116; 114; 97; 105; 103; 104; 116; 32; 85; 84; 70; 45; 56; 32; 116; 111; 32; 116; 104; 105; 110; 103; 115; 32; 85; 84; 70; 49; 54; 32; 119; 111; 117; 108; 100; 32; 101; 115; 99; 97; 112; 101; 58; 32; 241; 130; 129; 128; 0]);
  do t7 <- toUtf16_8 (At [85; 84; 70; 45; 56; 32; 111; 102; 32; 85; 84; 70; 45; 49; 54; 32; 116; 111; 32; 116; 104; 105; 110; 103; 115; 32; 85; 84; 70; 49; 54; 32; 119; 111; 117; 108; 100; 32; 101; 115; 99; 97; 112; 101; 58; 32; 240; 144; 128; 128; 242; 135; 176; 176; 0]);
  do t8 <- toUtf16_8 (At [85; 84; 70; 45; 56; 32; 111; 102; 32; 85; 84; 70; 45; 49; 54; 32; 116; 111; 32; 116; 104; 105; 110; 103; 115; 32; 85; 84; 70; 49; 54; 32; 119; 111; 117; 108; 100; 32; 101; 115; 99; 97; 112; 101; 58; 32; 240; 144; 128; 128; 242; 135; 176; 0; 0]);
  do t9 <- toUtf16_8 (At [89; 111; 117; 32; 99; 97; 110; 39; 116; 32; 115; 119; 105; 116; 99; 104; 32; 116; 104; 105; 115; 58; 32; 244; 144; 128; 128; 0]);
  do t10 <- toUtf16_8 (At [67; 111; 110; 118; 101; 114; 116; 32; 237; 160; 128; 46; 0]);
  do t11 <- toUtf16_8 (At [53; 45; 98; 121; 116; 101; 32; 101; 115; 99; 97; 112; 101; 58; 32; 249; 183; 166; 149; 132; 0]);
  do t12 <- toUtf16_8 (At [54; 45; 98; 121; 116; 101; 32; 101; 115; 99; 97; 112; 101; 58; 32; 253; 183; 166; 149; 132; 131; 0]);
  do t13 <- toUtf16_8 (At [50; 45; 98; 121; 116; 101; 32; 192; 32; 98; 97; 100; 46; 0]);
  do t14 <- toUtf16_8 (At [51; 45; 98; 121; 116; 101; 32; 227; 137; 32; 98; 97; 100; 46; 0]);
  do t15 <- toUtf16_8 (At [52; 45; 98; 121; 116; 101; 32; 240; 137; 152; 32; 98; 97; 100; 46; 0]);
  Done [(match t1 with [] => true | _ => false end);
        (match t2 with [] => true | _ => false end);
        ((Z.of_nat (length (upto0 [78; 111; 119; 32; 105; 115; 32; 116; 104; 101; 32; 116; 105; 109; 101; 32; 102; 111; 114; 32; 97; 108; 108; 32; 103; 111; 111; 100; 32; 109; 101; 110; 32; 116; 111; 32; 99; 111; 109; 101; 32; 116; 111; 32; 116; 104; 101; 32; 97; 105; 100; 32; 111; 102; 32; 116; 104; 101; 32; 112; 97; 114; 116; 121; 46; 0]))) =? (Z.of_nat (length t3)));
        (0 =? (if mem_eqb 66%nat [78; 111; 119; 32; 105; 115; 32; 116; 104; 101; 32; 116; 105; 109; 101; 32; 102; 111; 114; 32; 97; 108; 108; 32; 103; 111; 111; 100; 32; 109; 101; 110; 32; 116; 111; 32; 99; 111; 109; 101; 32; 116; 111; 32; 116; 104; 101; 32; 97; 105; 100; 32; 111; 102; 32; 116; 104; 101; 32; 112; 97; 114; 116; 121; 46; 0] (t3 ++ [0]) then 0 else 1));
        (((Z.of_nat (length (upto0 [66; 101; 118; 111; 114; 32; 100; 105; 101; 32; 87; 101; 108; 116; 32; 103; 101; 115; 99; 104; 97; 102; 102; 101; 110; 32; 119; 195; 188; 114; 100; 101; 32; 119; 97; 114; 32; 100; 97; 115; 32; 87; 111; 114; 116; 32; 115; 99; 104; 111; 110; 32; 100; 97; 46; 0]))) - 1) =? (Z.of_nat (length t4)));
        (0 =? (if mem_eqb 55%nat [66; 101; 118; 111; 114; 32; 100; 105; 101; 32; 87; 101; 108; 116; 32; 103; 101; 115; 99; 104; 97; 102; 102; 101; 110; 32; 119; 252; 114; 100; 101; 32; 119; 97; 114; 32; 100; 97; 115; 32; 87; 111; 114; 116; 32; 115; 99; 104; 111; 110; 32; 100; 97; 46; 0] (t4 ++ [0]) then 0 else 1));
        (((Z.of_nat (length (upto0 [79; 104; 32; 110; 101; 118; 101; 114; 32; 228; 133; 150; 32; 109; 105; 110; 100; 46; 0]))) - 2) =? (Z.of_nat (length t5)));
        (0 =? (if mem_eqb 17%nat [79; 104; 32; 110; 101; 118; 101; 114; 32; 16726; 32; 109; 105; 110; 100; 46; 0] (t5 ++ [0]) then 0 else 1));
        (0 =? (if mem_eqb 48%nat [83; 116; 114; 97; 105; 103; 104; 116; 32; 85; 84; 70; 45; 56; 32; 116; 111; 32; 116; 104; 105; 110; 103; 115; 32; 85; 84; 70; 49; 54; 32; 119; 111; 117; 108; 100; 32; 101; 115; 99; 97; 112; 101; 58; 32; 55496; 56384; 0] (t6 ++ [0]) then 0 else 1));
        (0 =? (if mem_eqb 51%nat [85; 84; 70; 45; 56; 32; 111; 102; 32; 85; 84; 70; 45; 49; 54; 32; 116; 111; 32; 116; 104; 105; 110; 103; 115; 32; 85; 84; 70; 49; 54; 32; 119; 111; 117; 108; 100; 32; 101; 115; 99; 97; 112; 101; 58; 32; 55296; 56320; 55775; 56368; 0] (t7 ++ [0]) then 0 else 1));
        (((Z.of_nat (length t8)) + 2) =? (Z.of_nat (length t7)));
        (match t9 with [] => true | _ => false end);
        (match t10 with [] => true | _ => false end);
        (match t11 with [] => true | _ => false end);
        (match t12 with [] => true | _ => false end);
        (match t13 with [] => true | _ => false end);
        (match t14 with [] => true | _ => false end);
        (match t15 with [] => true | _ => false end)].
Example run_testToUtf16From8Bit_passes : all_true (run_testToUtf16From8Bit (tables V16)) = true.
Proof. vm_cast_no_check (eq_refl true). Qed.

(* testToUtf16From32Bit, 5 checks *)
Definition run_testToUtf16From32Bit (T : UnicodeTables) : outcome (list bool) :=
  do t1 <- toUtf16_32 (At [78; 111; 119; 32; 105; 115; 32; 116; 104; 101; 32; 116; 290; 4933; 105; 109; 101; 0]);
  do t2 <- toUtf16_32 (At [78; 111; 119; 32; 105; 115; 32; 116; 104; 101; 32; 116; 1053509; 105; 109; 101; 0]);
  do t3 <- toUtf16_32 (At [78; 111; 119; 32; 105; 115; 32; 116; 104; 101; 32; 116; 56260; 105; 109; 101; 0]);
  do t4 <- toUtf16_32 (At [78; 111; 119; 32; 105; 115; 32; 116; 104; 101; 32; 116; 57157; 105; 109; 101; 0]);
  do t5 <- toUtf16_32 (At [22; 130; 2100; 32000; 655360; 1577524; 19088743; 876893525; 0]);
  Done [(0 =? (if mem_eqb (Z.to_nat ((((Z.of_nat (length t1)) + 1) + 1) / 2)) [78; 111; 119; 32; 105; 115; 32; 116; 104; 101; 32; 116; 290; 4933; 105; 109; 101; 0] (t1 ++ [0]) then 0 else 1));
        (0 =? (if mem_eqb 18%nat [78; 111; 119; 32; 105; 115; 32; 116; 104; 101; 32; 116; 56260; 57157; 105; 109; 101; 0] (t2 ++ [0]) then 0 else 1));
        (match t3 with [] => true | _ => false end);
        (match t4 with [] => true | _ => false end);
        (match t5 with [] => true | _ => false end)].
Example run_testToUtf16From32Bit_passes : all_true (run_testToUtf16From32Bit (tables V16)) = true.
Proof. vm_cast_no_check (eq_refl true). Qed.

(* testToUcs4From8Bit, 18 checks *)
Definition run_testToUcs4From8Bit (T : UnicodeTables) : outcome (list bool) :=
  do t1 <- toUcs4_8 (At [78; 111; 119; 32; 105; 115; 32; 116; 104; 101; 32; 116; 105; 109; 101; 32; 102; 111; 114; 32; 97; 108; 108; 32; 103; 111; 111; 100; 32; 109; 101; 110; 32; 116; 111; 32; 99; 111; 109; 101; 32; 116; 111; 32; 116; 104; 101; 32; 97; 105; 100; 32; 111; 102; 32; 116; 104; 101; 32; 112; 97; 114; 116; 121; 46; 0]);
  do t2 <- toUcs4_8 (At [66; 101; 118; 111; 114; 32; 100; 105; 101; 32; 87; 101; 108; 116; 32; 103; 101; 115; 99; 104; 97; 102; 102; 101; 110; 32; 119; 195; 188; 114; 100; 101; 32; 119; 97; 114; 32; 100; 97; 115; 32; 87; 111; 114; 116; 32; 115; 99; 104; 111; 110; 32; 100; 97; 46; 0]);
  do t3 <- toUcs4_8 (At [79; 104; 32; 110; 101; 118; 101; 114; 32; 228; 133; 150; 32; 109; 105; 110; 100; 46; 0]);
  do t4 <- toUcs4_8 (At [83; 116; 114; 97; 105; 103; 104; 116; 32; 85; 84; 70; 45; 56; 32; 116; 111; 32; 116; 104; 105; 110; 103; 115; 32; 85; 84; 70; 49; 54; 32; 119; 111; 117; 108; 100; 32; 101; 115; 99; 97; 112; 101; 58; 32; 241; 130; 129; 128; 0]);
  do t5 <- toUcs4_8 (At [85; 84; 70; 45; 56; 32; 111; 102; 32; 85; 84; 70; 45; 49; 54; 32; 116; 111; 32; 116; 104; 105; 110; 103; 115; 32; 85; 84; 70; 49; 54; 32; 119; 111; 117; 108; 100; 32; 101; 115; 99; 97; 112; 101; 58; 32; 240; 144; 128; 128; 242; 135; 176; 176; 0]);
  do t6 <- toUcs4_8 (At [89; 111; 117; 32; 99; 97; 110; 39; 116; 32; 115; 119; 105; 116; 99; 104; 32; 116; 104; 105; 115; 58; 32; 244; 144; 128; 128; 0]);
  do t7 <- toUcs4_8 (At [53; 45; 98; 121; 116; 101; 32; 101; 115; 99; 97; 112; 101; 58; 32; 249; 183; 166; 149; 132; 0]);
  do t8 <- toUcs4_8 (At [54; 45; 98; 121; 116; 101; 32; 101; 115; 99; 97; 112; 101; 58; 32; 253; 183; 166; 149; 132; 131; 0]);
  do t9 <- toUcs4_8 (At [54; 45; 98; 121; 116; 101; 32; 101; 115; 99; 97; 112; 101; 58; 32; 253; 183; 166; 149; 132; 0; 0]);
  do t10 <- toUcs4_8 (At [67; 111; 110; 118; 101; 114; 116; 32; 237; 160; 128; 46; 0]);
  do t11 <- toUcs4_8 (At [50; 45; 98; 121; 116; 101; 32; 192; 32; 98; 97; 100; 46; 0]);
  do t12 <- toUcs4_8 (At [51; 45; 98; 121; 116; 101; 32; 227; 137; 32; 98; 97; 100; 46; 0]);
  do t13 <- toUcs4_8 (At [52; 45; 98; 121; 116; 101; 32; 240; 137; 152; 32; 98; 97; 100; 46; 0]);
  do t14 <- toUcs4_8 (At [53; 45; 98; 121; 116; 101; 32; 248; 137; 152; 168; 32; 98; 97; 100; 46; 0]);
  do t15 <- toUcs4_8 (At [54; 45; 98; 121; 116; 101; 32; 252; 137; 152; 168; 179; 32; 98; 97; 100; 46; 0]);
  Done [((Z.of_nat (length (upto0 [78; 111; 119; 32; 105; 115; 32; 116; 104; 101; 32; 116; 105; 109; 101; 32; 102; 111; 114; 32; 97; 108; 108; 32; 103; 111; 111; 100; 32; 109; 101; 110; 32; 116; 111; 32; 99; 111; 109; 101; 32; 116; 111; 32; 116; 104; 101; 32; 97; 105; 100; 32; 111; 102; 32; 116; 104; 101; 32; 112; 97; 114; 116; 121; 46; 0]))) =? (Z.of_nat (length t1)));
        (0 =? (if mem_eqb 66%nat [78; 111; 119; 32; 105; 115; 32; 116; 104; 101; 32; 116; 105; 109; 101; 32; 102; 111; 114; 32; 97; 108; 108; 32; 103; 111; 111; 100; 32; 109; 101; 110; 32; 116; 111; 32; 99; 111; 109; 101; 32; 116; 111; 32; 116; 104; 101; 32; 97; 105; 100; 32; 111; 102; 32; 116; 104; 101; 32; 112; 97; 114; 116; 121; 46; 0] (t1 ++ [0]) then 0 else 1));
        (((Z.of_nat (length (upto0 [66; 101; 118; 111; 114; 32; 100; 105; 101; 32; 87; 101; 108; 116; 32; 103; 101; 115; 99; 104; 97; 102; 102; 101; 110; 32; 119; 195; 188; 114; 100; 101; 32; 119; 97; 114; 32; 100; 97; 115; 32; 87; 111; 114; 116; 32; 115; 99; 104; 111; 110; 32; 100; 97; 46; 0]))) - 1) =? (Z.of_nat (length t2)));
        (0 =? (if mem_eqb 55%nat [66; 101; 118; 111; 114; 32; 100; 105; 101; 32; 87; 101; 108; 116; 32; 103; 101; 115; 99; 104; 97; 102; 102; 101; 110; 32; 119; 252; 114; 100; 101; 32; 119; 97; 114; 32; 100; 97; 115; 32; 87; 111; 114; 116; 32; 115; 99; 104; 111; 110; 32; 100; 97; 46; 0] (t2 ++ [0]) then 0 else 1));
        (((Z.of_nat (length (upto0 [79; 104; 32; 110; 101; 118; 101; 114; 32; 228; 133; 150; 32; 109; 105; 110; 100; 46; 0]))) - 2) =? (Z.of_nat (length t3)));
        (0 =? (if mem_eqb 17%nat [79; 104; 32; 110; 101; 118; 101; 114; 32; 16726; 32; 109; 105; 110; 100; 46; 0] (t3 ++ [0]) then 0 else 1));
        (0 =? (if mem_eqb 47%nat [83; 116; 114; 97; 105; 103; 104; 116; 32; 85; 84; 70; 45; 56; 32; 116; 111; 32; 116; 104; 105; 110; 103; 115; 32; 85; 84; 70; 49; 54; 32; 119; 111; 117; 108; 100; 32; 101; 115; 99; 97; 112; 101; 58; 32; 270400; 0] (t4 ++ [0]) then 0 else 1));
        (0 =? (if mem_eqb 49%nat [85; 84; 70; 45; 56; 32; 111; 102; 32; 85; 84; 70; 45; 49; 54; 32; 116; 111; 32; 116; 104; 105; 110; 103; 115; 32; 85; 84; 70; 49; 54; 32; 119; 111; 117; 108; 100; 32; 101; 115; 99; 97; 112; 101; 58; 32; 65536; 556080; 0] (t5 ++ [0]) then 0 else 1));
        (0 =? (if mem_eqb 25%nat [89; 111; 117; 32; 99; 97; 110; 39; 116; 32; 115; 119; 105; 116; 99; 104; 32; 116; 104; 105; 115; 58; 32; 1114112; 0] (t6 ++ [0]) then 0 else 1));
        (0 =? (if mem_eqb 17%nat [53; 45; 98; 121; 116; 101; 32; 101; 115; 99; 97; 112; 101; 58; 32; 31352132; 0] (t7 ++ [0]) then 0 else 1));
        (0 =? (if mem_eqb 17%nat [54; 45; 98; 121; 116; 101; 32; 101; 115; 99; 97; 112; 101; 58; 32; 2006536451; 0] (t8 ++ [0]) then 0 else 1));
        (((Z.of_nat (length t9)) + 1) =? (Z.of_nat (length t8)));
        (match t10 with [] => true | _ => false end);
        (match t11 with [] => true | _ => false end);
        (match t12 with [] => true | _ => false end);
        (match t13 with [] => true | _ => false end);
        (match t14 with [] => true | _ => false end);
        (match t15 with [] => true | _ => false end)].
Example run_testToUcs4From8Bit_passes : all_true (run_testToUcs4From8Bit (tables V16)) = true.
Proof. vm_cast_no_check (eq_refl true). Qed.

(* testToUcs4From16Bit, 4 checks *)
Definition run_testToUcs4From16Bit (T : UnicodeTables) : outcome (list bool) :=
  do t1 <- toUcs4_16 (At [78; 246; 119; 32; 105; 115; 32; 952; 101; 32; 116; 105; 109; 101; 46; 0]);
  do t2 <- toUcs4_16 (At [78; 246; 119; 32; 105; 115; 32; 952; 101; 32; 55296; 57343; 105; 109; 101; 46; 0]);
  do t3 <- toUcs4_16 (At [78; 246; 119; 32; 105; 115; 32; 952; 101; 32; 57343; 105; 109; 101; 46; 0]);
  do t4 <- toUcs4_16 (At [78; 246; 119; 32; 105; 115; 32; 952; 101; 32; 55296; 105; 109; 101; 46; 0]);
  Done [(0 =? (if mem_eqb 16%nat [78; 246; 119; 32; 105; 115; 32; 952; 101; 32; 116; 105; 109; 101; 46; 0] (t1 ++ [0]) then 0 else 1));
        (0 =? (if mem_eqb 16%nat [78; 246; 119; 32; 105; 115; 32; 952; 101; 32; 66559; 105; 109; 101; 46; 0] (t2 ++ [0]) then 0 else 1));
        (match t3 with [] => true | _ => false end);
        (match t4 with [] => true | _ => false end)].
Example run_testToUcs4From16Bit_passes : all_true (run_testToUcs4From16Bit (tables V16)) = true.
Proof. vm_cast_no_check (eq_refl true). Qed.

(* testGoodUtf8ToBadValues, 30 checks *)
Definition run_testGoodUtf8ToBadValues (T : UnicodeTables) : outcome (list bool) :=
  do t1 <- isUtf8 T (At [73; 39; 109; 32; 98; 97; 100; 58; 32; 192; 128; 46; 0]) kUtf8 nullPredicate;
  do t2 <- toUcs4_8 (At [73; 39; 109; 32; 98; 97; 100; 58; 32; 192; 128; 46; 0]);
  do t3 <- isUtf8 T (At [73; 39; 109; 32; 98; 97; 100; 58; 32; 193; 191; 46; 0]) kUtf8 nullPredicate;
  do t4 <- toUcs4_8 (At [73; 39; 109; 32; 98; 97; 100; 58; 32; 193; 191; 46; 0]);
  do t5 <- isUtf8 T (At [73; 39; 109; 32; 103; 111; 111; 100; 58; 32; 194; 128; 46; 0]) kUtf8 nullPredicate;
  do t6 <- toUcs4_8 (At [73; 39; 109; 32; 103; 111; 111; 100; 58; 32; 194; 128; 46; 0]);
  do t7 <- isUtf8 T (At [73; 39; 109; 32; 98; 97; 100; 58; 32; 224; 128; 128; 46; 0]) kUtf8 nullPredicate;
  do t8 <- toUcs4_8 (At [73; 39; 109; 32; 98; 97; 100; 58; 32; 224; 128; 128; 46; 0]);
  do t9 <- isUtf8 T (At [73; 39; 109; 32; 98; 97; 100; 58; 32; 224; 159; 191; 46; 0]) kUtf8 nullPredicate;
  do t10 <- toUcs4_8 (At [73; 39; 109; 32; 98; 97; 100; 58; 32; 224; 159; 191; 46; 0]);
  do t11 <- isUtf8 T (At [73; 39; 109; 32; 103; 111; 111; 100; 58; 32; 224; 160; 128; 46; 0]) kUtf8 nullPredicate;
  do t12 <- toUcs4_8 (At [73; 39; 109; 32; 103; 111; 111; 100; 58; 32; 224; 160; 128; 46; 0]);
  do t13 <- isUtf8 T (At [73; 39; 109; 32; 98; 97; 100; 58; 32; 240; 128; 128; 128; 46; 0]) kUtf8 nullPredicate;
  do t14 <- toUcs4_8 (At [73; 39; 109; 32; 98; 97; 100; 58; 32; 240; 128; 128; 128; 46; 0]);
  do t15 <- isUtf8 T (At [73; 39; 109; 32; 98; 97; 100; 58; 32; 240; 143; 191; 191; 46; 0]) kUtf8 nullPredicate;
  do t16 <- toUcs4_8 (At [73; 39; 109; 32; 98; 97; 100; 58; 32; 240; 143; 191; 191; 46; 0]);
  do t17 <- isUtf8 T (At [73; 39; 109; 32; 103; 111; 111; 100; 58; 32; 240; 144; 128; 128; 46; 0]) kUtf8 nullPredicate;
  do t18 <- toUcs4_8 (At [73; 39; 109; 32; 103; 111; 111; 100; 58; 32; 240; 144; 128; 128; 46; 0]);
  do t19 <- isUtf8 T (At [73; 39; 109; 32; 98; 97; 100; 58; 32; 248; 128; 128; 128; 128; 46; 0]) kUtf8 nullPredicate;
  do t20 <- toUcs4_8 (At [73; 39; 109; 32; 98; 97; 100; 58; 32; 248; 128; 128; 128; 128; 46; 0]);
  do t21 <- isUtf8 T (At [73; 39; 109; 32; 98; 97; 100; 58; 32; 248; 135; 191; 191; 191; 46; 0]) kUtf8 nullPredicate;
  do t22 <- toUcs4_8 (At [73; 39; 109; 32; 98; 97; 100; 58; 32; 248; 135; 191; 191; 191; 46; 0]);
  do t23 <- isUtf8 T (At [73; 39; 109; 32; 103; 111; 111; 100; 58; 32; 248; 136; 128; 128; 128; 46; 0]) kUtf8 nullPredicate;
  do t24 <- toUcs4_8 (At [73; 39; 109; 32; 103; 111; 111; 100; 58; 32; 248; 136; 128; 128; 128; 46; 0]);
  do t25 <- isUtf8 T (At [73; 39; 109; 32; 98; 97; 100; 58; 32; 252; 128; 128; 128; 128; 128; 46; 0]) kUtf8 nullPredicate;
  do t26 <- toUcs4_8 (At [73; 39; 109; 32; 98; 97; 100; 58; 32; 252; 128; 128; 128; 128; 128; 46; 0]);
  do t27 <- isUtf8 T (At [73; 39; 109; 32; 98; 97; 100; 58; 32; 252; 131; 191; 191; 191; 191; 46; 0]) kUtf8 nullPredicate;
  do t28 <- toUcs4_8 (At [73; 39; 109; 32; 98; 97; 100; 58; 32; 252; 131; 191; 191; 191; 191; 46; 0]);
  do t29 <- isUtf8 T (At [73; 39; 109; 32; 103; 111; 111; 100; 58; 32; 252; 132; 128; 128; 128; 128; 46; 0]) kUtf8 nullPredicate;
  do t30 <- toUcs4_8 (At [73; 39; 109; 32; 103; 111; 111; 100; 58; 32; 252; 132; 128; 128; 128; 128; 46; 0]);
  Done [(negb t1);
        (match t2 with [] => true | _ => false end);
        (negb t3);
        (match t4 with [] => true | _ => false end);
        t5;
        (negb (match t6 with [] => true | _ => false end));
        (negb t7);
        (match t8 with [] => true | _ => false end);
        (negb t9);
        (match t10 with [] => true | _ => false end);
        t11;
        (negb (match t12 with [] => true | _ => false end));
        (negb t13);
        (match t14 with [] => true | _ => false end);
        (negb t15);
        (match t16 with [] => true | _ => false end);
        t17;
        (negb (match t18 with [] => true | _ => false end));
        (negb t19);
        (match t20 with [] => true | _ => false end);
        (negb t21);
        (match t22 with [] => true | _ => false end);
        t23;
        (negb (match t24 with [] => true | _ => false end));
        (negb t25);
        (match t26 with [] => true | _ => false end);
        (negb t27);
        (match t28 with [] => true | _ => false end);
        t29;
        (negb (match t30 with [] => true | _ => false end))].
Example run_testGoodUtf8ToBadValues_passes : forallb (fun V => all_true (run_testGoodUtf8ToBadValues (tables V))) [V7; V8; V9; V10; V11; V12; V13; V14; V15; V16] = true.
Proof. vm_cast_no_check (eq_refl true). Qed.

(* testUnicodeLengthUtf8, 122 checks *)
Definition run_testUnicodeLengthUtf8 (T : UnicodeTables) : outcome (list bool) :=
  do t1 <- unicodeLength8 (At [78; 111; 119; 32; 105; 115; 32; 116; 104; 101; 32; 116; 105; 109; 101; 32; 102; 111; 114; 32; 97; 108; 108; 32; 103; 111; 111; 100; 32; 109; 101; 110; 32; 116; 111; 32; 99; 111; 109; 101; 32; 116; 111; 32; 116; 104; 101; 32; 97; 105; 100; 32; 111; 102; 32; 116; 104; 101; 32; 112; 97; 114; 116; 121; 46; 0]) 0;
  do t2 <- unicodeLength8 (At [78; 111; 119; 32; 105; 115; 32; 116; 104; 101; 32; 116; 105; 109; 101; 32; 102; 111; 114; 32; 97; 108; 108; 32; 103; 111; 111; 100; 32; 109; 101; 110; 32; 116; 111; 32; 99; 111; 109; 101; 32; 116; 111; 32; 116; 104; 101; 32; 97; 105; 100; 32; 111; 102; 32; 116; 104; 101; 32; 112; 97; 114; 116; 121; 46; 0]) 60;
  do t3 <- unicodeLength8 (At [78; 111; 119; 32; 105; 115; 32; 116; 104; 101; 32; 116; 105; 109; 101; 32; 102; 111; 114; 32; 97; 108; 108; 32; 103; 111; 111; 100; 32; 109; 101; 110; 32; 116; 111; 32; 99; 111; 109; 101; 32; 116; 111; 32; 116; 104; 101; 32; 97; 105; 100; 32; 111; 102; 32; 116; 104; 101; 32; 112; 97; 114; 116; 121; 46; 0]) 66;
  dos t4 <- basic_string (At [78; 111; 119; 32; 105; 115; 32; 116; 104; 101; 32; 116; 105; 109; 101; 32; 102; 111; 114; 32; 97; 108; 108; 32; 103; 111; 111; 100; 32; 109; 101; 110; 32; 116; 111; 32; 99; 111; 109; 101; 32; 116; 111; 32; 116; 104; 101; 32; 97; 105; 100; 32; 111; 102; 32; 116; 104; 101; 32; 112; 97; 114; 116; 121; 46; 0]);
  do t5 <- unicodeLength8 (c_str t4) 0;
  do t6 <- unicodeLength8 Null 0;
  do t7 <- unicodeLength8 (At [0]) 0;
  do t8 <- unicodeLength8 (At [74; 101; 116; 122; 116; 32; 103; 97; 98; 32; 101; 115; 32; 119; 105; 101; 100; 101; 114; 32; 83; 99; 104; 195; 188; 115; 115; 101; 46; 0]) 0;
  do t9 <- unicodeLength8 (At [74; 101; 116; 122; 116; 32; 103; 97; 98; 32; 101; 115; 32; 119; 105; 101; 100; 101; 114; 32; 83; 99; 104; 195; 188; 115; 115; 101; 46; 0]) 29;
  do t10 <- unicodeLength8 (At [74; 101; 116; 122; 116; 32; 103; 97; 98; 32; 101; 115; 32; 119; 105; 101; 100; 101; 114; 32; 83; 99; 104; 195; 188; 115; 115; 101; 46; 0]) 30;
  do t11 <- unicodeLength8 (At [74; 101; 116; 122; 116; 32; 103; 97; 98; 32; 101; 115; 32; 119; 105; 101; 100; 101; 114; 32; 83; 99; 104; 195; 188; 115; 115; 101; 46; 0]) 28;
  do t12 <- unicodeLength8 (At [74; 101; 116; 122; 116; 32; 103; 97; 98; 32; 101; 115; 32; 119; 105; 101; 100; 101; 114; 32; 83; 99; 104; 195; 188; 115; 115; 101; 46; 0]) 27;
  do t13 <- unicodeLength8 (At [74; 101; 116; 122; 116; 32; 103; 97; 98; 32; 101; 115; 32; 119; 105; 101; 100; 101; 114; 32; 83; 99; 104; 195; 188; 115; 115; 101; 46; 0]) 26;
  do t14 <- unicodeLength8 (At [74; 101; 116; 122; 116; 32; 103; 97; 98; 32; 101; 115; 32; 119; 105; 101; 100; 101; 114; 32; 83; 99; 104; 195; 188; 115; 115; 101; 46; 0]) 25;
  do t15 <- unicodeLength8 (At [74; 101; 116; 122; 116; 32; 103; 97; 98; 32; 101; 115; 32; 119; 105; 101; 100; 101; 114; 32; 83; 99; 104; 195; 188; 115; 115; 101; 46; 0]) 24;
  do t16 <- unicodeLength8 (At [74; 101; 116; 122; 116; 32; 103; 97; 98; 32; 101; 115; 32; 119; 105; 101; 100; 101; 114; 32; 83; 99; 104; 195; 188; 115; 115; 101; 46; 0]) 23;
  do t17 <- unicodeLength8 (At [74; 101; 116; 122; 116; 32; 103; 97; 98; 32; 101; 115; 32; 119; 105; 101; 100; 101; 114; 32; 83; 99; 104; 195; 188; 115; 115; 101; 46; 0]) 22;
  do t18 <- unicodeLength8 (At [74; 101; 116; 122; 116; 32; 103; 97; 98; 32; 101; 115; 32; 119; 105; 101; 100; 101; 114; 32; 83; 99; 104; 195; 188; 115; 115; 101; 46; 0]) 21;
  do t19 <- unicodeLength8 (At [74; 101; 116; 122; 116; 32; 103; 97; 98; 32; 101; 115; 32; 119; 105; 101; 100; 101; 114; 32; 83; 99; 104; 195; 188; 115; 115; 101; 46; 0]) 20;
  do t20 <- unicodeLength8 (At [74; 101; 116; 122; 116; 32; 103; 97; 98; 32; 101; 115; 32; 119; 105; 101; 100; 101; 114; 32; 83; 99; 104; 195; 0; 115; 115; 101; 46; 0]) 0;
  do t21 <- unicodeLength8 (At [215; 145; 215; 168; 215; 169; 215; 153; 215; 148; 32; 215; 145; 215; 168; 215; 144; 32; 215; 144; 215; 156; 215; 149; 215; 148; 215; 153; 215; 157; 32; 215; 144; 215; 170; 32; 215; 148; 215; 169; 215; 158; 215; 153; 215; 157; 32; 215; 149; 215; 144; 215; 170; 32; 215; 148; 215; 144; 215; 168; 215; 165; 0]) 0;
  do t22 <- unicodeLength8 (At [215; 145; 215; 168; 215; 169; 215; 153; 215; 148; 32; 215; 145; 215; 168; 215; 144; 32; 215; 144; 215; 156; 215; 149; 215; 148; 215; 153; 215; 157; 32; 215; 144; 215; 170; 32; 215; 148; 215; 169; 215; 158; 215; 153; 215; 157; 32; 215; 149; 215; 144; 215; 170; 32; 215; 148; 215; 144; 215; 168; 215; 165; 0]) 62;
  do t23 <- unicodeLength8 (At [215; 145; 215; 168; 215; 169; 215; 153; 215; 148; 32; 215; 145; 215; 168; 215; 144; 32; 215; 144; 215; 156; 215; 149; 215; 148; 215; 153; 215; 157; 32; 215; 144; 215; 170; 32; 215; 148; 215; 169; 215; 158; 215; 153; 215; 157; 32; 215; 149; 215; 144; 215; 170; 32; 215; 148; 215; 144; 215; 168; 215; 165; 0]) 63;
  do t24 <- unicodeLength8 (At [215; 145; 215; 168; 215; 169; 215; 153; 215; 148; 32; 215; 145; 215; 168; 215; 144; 32; 215; 144; 215; 156; 215; 149; 215; 148; 215; 153; 215; 157; 32; 215; 144; 215; 170; 32; 215; 148; 215; 169; 215; 158; 215; 153; 215; 157; 32; 215; 149; 215; 144; 215; 170; 32; 215; 148; 215; 144; 215; 168; 215; 165; 0]) 61;
  do t25 <- unicodeLength8 (At [215; 145; 215; 168; 215; 169; 215; 153; 215; 148; 32; 215; 145; 215; 168; 215; 144; 32; 215; 144; 215; 156; 215; 149; 215; 148; 215; 153; 215; 157; 32; 215; 144; 215; 170; 32; 215; 148; 215; 169; 215; 158; 215; 153; 215; 157; 32; 215; 149; 215; 144; 215; 170; 32; 215; 148; 215; 144; 215; 168; 215; 165; 0]) 60;
  do t26 <- unicodeLength8 (At [215; 145; 215; 168; 215; 169; 215; 153; 215; 148; 32; 215; 145; 215; 168; 215; 144; 32; 215; 144; 215; 156; 215; 149; 215; 148; 215; 153; 215; 157; 32; 215; 144; 215; 170; 32; 215; 148; 215; 169; 215; 158; 215; 153; 215; 157; 32; 215; 149; 215; 144; 215; 170; 32; 215; 148; 215; 144; 215; 168; 215; 165; 0]) 59;
  do t27 <- unicodeLength8 (At [215; 145; 215; 168; 215; 169; 215; 153; 215; 148; 32; 215; 145; 215; 168; 215; 144; 32; 215; 144; 215; 156; 215; 149; 215; 148; 215; 153; 215; 157; 32; 215; 144; 215; 170; 32; 215; 148; 215; 169; 215; 158; 215; 153; 215; 157; 32; 215; 149; 215; 144; 215; 170; 32; 215; 148; 215; 144; 215; 168; 215; 165; 0]) 58;
  do t28 <- unicodeLength8 (At [215; 145; 215; 168; 215; 169; 215; 153; 215; 148; 32; 215; 145; 215; 168; 215; 144; 32; 215; 144; 215; 156; 215; 149; 215; 148; 215; 153; 215; 157; 32; 215; 144; 215; 170; 32; 215; 148; 215; 169; 215; 158; 215; 153; 215; 157; 32; 215; 149; 215; 144; 215; 170; 32; 215; 148; 215; 144; 215; 168; 215; 165; 0]) 57;
  do t29 <- unicodeLength8 (At [215; 145; 215; 168; 215; 169; 215; 153; 215; 148; 32; 215; 145; 215; 168; 215; 144; 32; 215; 144; 215; 156; 215; 149; 215; 148; 215; 153; 215; 157; 32; 215; 144; 215; 170; 32; 215; 148; 215; 169; 215; 158; 215; 153; 215; 157; 32; 215; 149; 215; 144; 215; 170; 32; 215; 148; 215; 144; 215; 168; 215; 165; 0]) 56;
  do t30 <- unicodeLength8 (At [215; 145; 215; 168; 215; 169; 215; 153; 215; 148; 32; 215; 145; 215; 168; 215; 144; 32; 215; 144; 215; 156; 215; 149; 215; 148; 215; 153; 215; 157; 32; 215; 144; 215; 170; 32; 215; 148; 215; 169; 215; 158; 215; 153; 215; 157; 32; 215; 149; 215; 144; 215; 170; 32; 215; 148; 215; 144; 215; 168; 215; 165; 0]) 55;
  do t31 <- unicodeLength8 (At [215; 145; 215; 168; 215; 169; 215; 153; 215; 148; 32; 215; 145; 215; 168; 215; 144; 32; 215; 144; 215; 156; 215; 149; 215; 148; 215; 153; 215; 157; 32; 215; 144; 215; 170; 32; 215; 148; 215; 169; 215; 158; 215; 153; 215; 157; 32; 215; 149; 215; 144; 215; 170; 32; 215; 148; 215; 144; 215; 168; 215; 165; 0]) 54;
  do t32 <- unicodeLength8 (At [215; 145; 215; 168; 215; 169; 215; 153; 215; 148; 32; 215; 145; 215; 168; 215; 144; 32; 215; 144; 215; 156; 215; 149; 215; 148; 215; 153; 215; 157; 32; 215; 144; 215; 170; 32; 215; 148; 215; 169; 215; 158; 215; 153; 215; 157; 32; 215; 149; 215; 144; 215; 170; 32; 215; 148; 215; 144; 215; 168; 215; 165; 0]) 53;
  do t33 <- unicodeLength8 (At [215; 145; 215; 168; 215; 169; 215; 153; 215; 148; 32; 215; 145; 215; 168; 215; 144; 32; 215; 144; 215; 156; 215; 149; 215; 148; 215; 153; 215; 157; 32; 215; 144; 215; 170; 32; 215; 148; 215; 169; 215; 158; 215; 153; 215; 157; 32; 215; 149; 215; 144; 215; 170; 32; 215; 148; 215; 144; 215; 168; 215; 165; 0]) 52;
  do t34 <- unicodeLength8 (At [215; 145; 215; 168; 215; 169; 215; 153; 215; 148; 32; 215; 145; 215; 168; 215; 144; 32; 215; 144; 215; 156; 215; 149; 215; 148; 215; 153; 215; 157; 32; 215; 144; 215; 170; 32; 215; 148; 215; 169; 215; 158; 215; 153; 215; 157; 32; 215; 149; 215; 144; 215; 170; 32; 215; 148; 215; 144; 215; 168; 215; 165; 0]) 51;
  do t35 <- unicodeLength8 (At [215; 145; 215; 168; 215; 169; 215; 153; 215; 148; 32; 215; 145; 215; 168; 215; 144; 32; 215; 144; 215; 156; 215; 149; 215; 148; 215; 153; 215; 157; 32; 215; 144; 215; 170; 32; 215; 148; 215; 169; 215; 158; 215; 153; 215; 157; 32; 215; 149; 215; 144; 215; 170; 32; 215; 148; 215; 144; 215; 168; 215; 165; 0]) 50;
  do t36 <- unicodeLength8 (At [229; 164; 170; 229; 136; 157; 230; 156; 137; 233; 129; 147; 239; 188; 140; 233; 129; 147; 232; 136; 135; 231; 165; 158; 229; 144; 140; 229; 156; 168; 239; 188; 140; 233; 129; 147; 229; 176; 177; 230; 152; 175; 231; 165; 158; 227; 128; 130; 10; 233; 128; 153; 233; 129; 147; 229; 164; 170; 229; 136; 157; 232; 136; 135; 231; 165; 158; 229; 144; 140; 229; 156; 168; 227; 128; 130; 10; 232; 144; 172; 231; 137; 169; 230; 152; 175; 232; 151; 137; 232; 145; 151; 228; 187; 150; 233; 128; 160; 231; 154; 132; 239; 188; 155; 229; 135; 161; 232; 162; 171; 233; 128; 160; 231; 154; 132; 239; 188; 140; 230; 178; 146; 230; 156; 137; 228; 184; 128; 230; 168; 163; 228; 184; 141; 230; 152; 175; 232; 151; 137; 232; 145; 151; 228; 187; 150; 233; 128; 160; 231; 154; 132; 227; 128; 130; 10; 231; 148; 159; 229; 145; 189; 229; 156; 168; 228; 187; 150; 232; 163; 161; 233; 160; 173; 239; 188; 140; 233; 128; 153; 231; 148; 159; 229; 145; 189; 229; 176; 177; 230; 152; 175; 228; 186; 186; 231; 154; 132; 229; 133; 137; 227; 128; 130; 10; 229; 133; 137; 231; 133; 167; 229; 156; 168; 233; 187; 145; 230; 154; 151; 232; 163; 161; 239; 188; 140; 233; 187; 145; 230; 154; 151; 229; 141; 187; 228; 184; 141; 230; 142; 165; 229; 143; 151; 229; 133; 137; 227; 128; 130; 0]) 0;
  do t37 <- unicodeLength8 (At [229; 164; 170; 229; 136; 157; 230; 156; 137; 233; 129; 147; 239; 188; 140; 233; 129; 147; 232; 136; 135; 231; 165; 158; 229; 144; 140; 229; 156; 168; 239; 188; 140; 233; 129; 147; 229; 176; 177; 230; 152; 175; 231; 165; 158; 227; 128; 130; 10; 233; 128; 153; 233; 129; 147; 229; 164; 170; 229; 136; 157; 232; 136; 135; 231; 165; 158; 229; 144; 140; 229; 156; 168; 227; 128; 130; 10; 232; 144; 172; 231; 137; 169; 230; 152; 175; 232; 151; 137; 232; 145; 151; 228; 187; 150; 233; 128; 160; 231; 154; 132; 239; 188; 155; 229; 135; 161; 232; 162; 171; 233; 128; 160; 231; 154; 132; 239; 188; 140; 230; 178; 146; 230; 156; 137; 228; 184; 128; 230; 168; 163; 228; 184; 141; 230; 152; 175; 232; 151; 137; 232; 145; 151; 228; 187; 150; 233; 128; 160; 231; 154; 132; 227; 128; 130; 10; 231; 148; 159; 229; 145; 189; 229; 156; 168; 228; 187; 150; 232; 163; 161; 233; 160; 173; 239; 188; 140; 233; 128; 153; 231; 148; 159; 229; 145; 189; 229; 176; 177; 230; 152; 175; 228; 186; 186; 231; 154; 132; 229; 133; 137; 227; 128; 130; 10; 229; 133; 137; 231; 133; 167; 229; 156; 168; 233; 187; 145; 230; 154; 151; 232; 163; 161; 239; 188; 140; 233; 187; 145; 230; 154; 151; 229; 141; 187; 228; 184; 141; 230; 142; 165; 229; 143; 151; 229; 133; 137; 227; 128; 130; 0]) 251;
  do t38 <- unicodeLength8 (At [229; 164; 170; 229; 136; 157; 230; 156; 137; 233; 129; 147; 239; 188; 140; 233; 129; 147; 232; 136; 135; 231; 165; 158; 229; 144; 140; 229; 156; 168; 239; 188; 140; 233; 129; 147; 229; 176; 177; 230; 152; 175; 231; 165; 158; 227; 128; 130; 10; 233; 128; 153; 233; 129; 147; 229; 164; 170; 229; 136; 157; 232; 136; 135; 231; 165; 158; 229; 144; 140; 229; 156; 168; 227; 128; 130; 10; 232; 144; 172; 231; 137; 169; 230; 152; 175; 232; 151; 137; 232; 145; 151; 228; 187; 150; 233; 128; 160; 231; 154; 132; 239; 188; 155; 229; 135; 161; 232; 162; 171; 233; 128; 160; 231; 154; 132; 239; 188; 140; 230; 178; 146; 230; 156; 137; 228; 184; 128; 230; 168; 163; 228; 184; 141; 230; 152; 175; 232; 151; 137; 232; 145; 151; 228; 187; 150; 233; 128; 160; 231; 154; 132; 227; 128; 130; 10; 231; 148; 159; 229; 145; 189; 229; 156; 168; 228; 187; 150; 232; 163; 161; 233; 160; 173; 239; 188; 140; 233; 128; 153; 231; 148; 159; 229; 145; 189; 229; 176; 177; 230; 152; 175; 228; 186; 186; 231; 154; 132; 229; 133; 137; 227; 128; 130; 10; 229; 133; 137; 231; 133; 167; 229; 156; 168; 233; 187; 145; 230; 154; 151; 232; 163; 161; 239; 188; 140; 233; 187; 145; 230; 154; 151; 229; 141; 187; 228; 184; 141; 230; 142; 165; 229; 143; 151; 229; 133; 137; 227; 128; 130; 0]) 250;
  do t39 <- unicodeLength8 (At [229; 164; 170; 229; 136; 157; 230; 156; 137; 233; 129; 147; 239; 188; 140; 233; 129; 147; 232; 136; 135; 231; 165; 158; 229; 144; 140; 229; 156; 168; 239; 188; 140; 233; 129; 147; 229; 176; 177; 230; 152; 175; 231; 165; 158; 227; 128; 130; 10; 233; 128; 153; 233; 129; 147; 229; 164; 170; 229; 136; 157; 232; 136; 135; 231; 165; 158; 229; 144; 140; 229; 156; 168; 227; 128; 130; 10; 232; 144; 172; 231; 137; 169; 230; 152; 175; 232; 151; 137; 232; 145; 151; 228; 187; 150; 233; 128; 160; 231; 154; 132; 239; 188; 155; 229; 135; 161; 232; 162; 171; 233; 128; 160; 231; 154; 132; 239; 188; 140; 230; 178; 146; 230; 156; 137; 228; 184; 128; 230; 168; 163; 228; 184; 141; 230; 152; 175; 232; 151; 137; 232; 145; 151; 228; 187; 150; 233; 128; 160; 231; 154; 132; 227; 128; 130; 10; 231; 148; 159; 229; 145; 189; 229; 156; 168; 228; 187; 150; 232; 163; 161; 233; 160; 173; 239; 188; 140; 233; 128; 153; 231; 148; 159; 229; 145; 189; 229; 176; 177; 230; 152; 175; 228; 186; 186; 231; 154; 132; 229; 133; 137; 227; 128; 130; 10; 229; 133; 137; 231; 133; 167; 229; 156; 168; 233; 187; 145; 230; 154; 151; 232; 163; 161; 239; 188; 140; 233; 187; 145; 230; 154; 151; 229; 141; 187; 228; 184; 141; 230; 142; 165; 229; 143; 151; 229; 133; 137; 227; 128; 130; 0]) 0;
  do t40 <- unicodeLength8 (At [229; 164; 170; 229; 136; 157; 230; 156; 137; 233; 129; 147; 239; 188; 140; 233; 129; 147; 232; 136; 135; 231; 165; 158; 229; 144; 140; 229; 156; 168; 239; 188; 140; 233; 129; 147; 229; 176; 177; 230; 152; 175; 231; 165; 158; 227; 128; 130; 10; 233; 128; 153; 233; 129; 147; 229; 164; 170; 229; 136; 157; 232; 136; 135; 231; 165; 158; 229; 144; 140; 229; 156; 168; 227; 128; 130; 10; 232; 144; 172; 231; 137; 169; 230; 152; 175; 232; 151; 137; 232; 145; 151; 228; 187; 150; 233; 128; 160; 231; 154; 132; 239; 188; 155; 229; 135; 161; 232; 162; 171; 233; 128; 160; 231; 154; 132; 239; 188; 140; 230; 178; 146; 230; 156; 137; 228; 184; 128; 230; 168; 163; 228; 184; 141; 230; 152; 175; 232; 151; 137; 232; 145; 151; 228; 187; 150; 233; 128; 160; 231; 154; 132; 227; 128; 130; 10; 231; 148; 159; 229; 145; 189; 229; 156; 168; 228; 187; 150; 232; 163; 161; 233; 160; 173; 239; 188; 140; 233; 128; 153; 231; 148; 159; 229; 145; 189; 229; 176; 177; 230; 152; 175; 228; 186; 186; 231; 154; 132; 229; 133; 137; 227; 128; 130; 10; 229; 133; 137; 231; 133; 167; 229; 156; 168; 233; 187; 145; 230; 154; 151; 232; 163; 161; 239; 188; 140; 233; 187; 145; 230; 154; 151; 229; 141; 187; 228; 184; 141; 230; 142; 165; 229; 143; 151; 229; 133; 137; 227; 128; 130; 0]) 249;
  do t41 <- unicodeLength8 (At [229; 164; 170; 229; 136; 157; 230; 156; 137; 233; 129; 147; 239; 188; 140; 233; 129; 147; 232; 136; 135; 231; 165; 158; 229; 144; 140; 229; 156; 168; 239; 188; 140; 233; 129; 147; 229; 176; 177; 230; 152; 175; 231; 165; 158; 227; 128; 130; 10; 233; 128; 153; 233; 129; 147; 229; 164; 170; 229; 136; 157; 232; 136; 135; 231; 165; 158; 229; 144; 140; 229; 156; 168; 227; 128; 130; 10; 232; 144; 172; 231; 137; 169; 230; 152; 175; 232; 151; 137; 232; 145; 151; 228; 187; 150; 233; 128; 160; 231; 154; 132; 239; 188; 155; 229; 135; 161; 232; 162; 171; 233; 128; 160; 231; 154; 132; 239; 188; 140; 230; 178; 146; 230; 156; 137; 228; 184; 128; 230; 168; 163; 228; 184; 141; 230; 152; 175; 232; 151; 137; 232; 145; 151; 228; 187; 150; 233; 128; 160; 231; 154; 132; 227; 128; 130; 10; 231; 148; 159; 229; 145; 189; 229; 156; 168; 228; 187; 150; 232; 163; 161; 233; 160; 173; 239; 188; 140; 233; 128; 153; 231; 148; 159; 229; 145; 189; 229; 176; 177; 230; 152; 175; 228; 186; 186; 231; 154; 132; 229; 133; 137; 227; 128; 130; 10; 229; 133; 137; 231; 133; 167; 229; 156; 168; 233; 187; 145; 230; 154; 151; 232; 163; 161; 239; 188; 140; 233; 187; 145; 230; 154; 151; 229; 141; 187; 228; 184; 141; 230; 142; 165; 229; 143; 151; 229; 133; 137; 227; 128; 130; 0]) 248;
  do t42 <- unicodeLength8 (At [229; 164; 170; 229; 136; 157; 230; 156; 137; 233; 129; 147; 239; 188; 140; 233; 129; 147; 232; 136; 135; 231; 165; 158; 229; 144; 140; 229; 156; 168; 239; 188; 140; 233; 129; 147; 229; 176; 177; 230; 152; 175; 231; 165; 158; 227; 128; 130; 10; 233; 128; 153; 233; 129; 147; 229; 164; 170; 229; 136; 157; 232; 136; 135; 231; 165; 158; 229; 144; 140; 229; 156; 168; 227; 128; 130; 10; 232; 144; 172; 231; 137; 169; 230; 152; 175; 232; 151; 137; 232; 145; 151; 228; 187; 150; 233; 128; 160; 231; 154; 132; 239; 188; 155; 229; 135; 161; 232; 162; 171; 233; 128; 160; 231; 154; 132; 239; 188; 140; 230; 178; 146; 230; 156; 137; 228; 184; 128; 230; 168; 163; 228; 184; 141; 230; 152; 175; 232; 151; 137; 232; 145; 151; 228; 187; 150; 233; 128; 160; 231; 154; 132; 227; 128; 130; 10; 231; 148; 159; 229; 145; 189; 229; 156; 168; 228; 187; 150; 232; 163; 161; 233; 160; 173; 239; 188; 140; 233; 128; 153; 231; 148; 159; 229; 145; 189; 229; 176; 177; 230; 152; 175; 228; 186; 186; 231; 154; 132; 229; 133; 137; 227; 128; 130; 10; 229; 133; 137; 231; 133; 167; 229; 156; 168; 233; 187; 145; 230; 154; 151; 232; 163; 161; 239; 188; 140; 233; 187; 145; 230; 154; 151; 229; 141; 187; 228; 184; 141; 230; 142; 165; 229; 143; 151; 229; 133; 137; 227; 128; 130; 0]) 247;
  do t43 <- unicodeLength8 (At [229; 164; 170; 229; 136; 157; 230; 156; 137; 233; 129; 147; 239; 188; 140; 233; 129; 147; 232; 136; 135; 231; 165; 158; 229; 144; 140; 229; 156; 168; 239; 188; 140; 233; 129; 147; 229; 176; 177; 230; 152; 175; 231; 165; 158; 227; 128; 130; 10; 233; 128; 153; 233; 129; 147; 229; 164; 170; 229; 136; 157; 232; 136; 135; 231; 165; 158; 229; 144; 140; 229; 156; 168; 227; 128; 130; 10; 232; 144; 172; 231; 137; 169; 230; 152; 175; 232; 151; 137; 232; 145; 151; 228; 187; 150; 233; 128; 160; 231; 154; 132; 239; 188; 155; 229; 135; 161; 232; 162; 171; 233; 128; 160; 231; 154; 132; 239; 188; 140; 230; 178; 146; 230; 156; 137; 228; 184; 128; 230; 168; 163; 228; 184; 141; 230; 152; 175; 232; 151; 137; 232; 145; 151; 228; 187; 150; 233; 128; 160; 231; 154; 132; 227; 128; 130; 10; 231; 148; 159; 229; 145; 189; 229; 156; 168; 228; 187; 150; 232; 163; 161; 233; 160; 173; 239; 188; 140; 233; 128; 153; 231; 148; 159; 229; 145; 189; 229; 176; 177; 230; 152; 175; 228; 186; 186; 231; 154; 132; 229; 133; 137; 227; 128; 130; 10; 229; 133; 137; 231; 133; 167; 229; 156; 168; 233; 187; 145; 230; 154; 151; 232; 163; 161; 239; 188; 140; 233; 187; 145; 230; 154; 151; 229; 141; 187; 228; 184; 141; 230; 142; 165; 229; 143; 151; 229; 133; 137; 227; 128; 130; 0]) 246;
  do t44 <- unicodeLength8 (At [229; 164; 170; 229; 136; 157; 230; 156; 137; 233; 129; 147; 239; 188; 140; 233; 129; 147; 232; 136; 135; 231; 165; 158; 229; 144; 140; 229; 156; 168; 239; 188; 140; 233; 129; 147; 229; 176; 177; 230; 152; 175; 231; 165; 158; 227; 128; 130; 10; 233; 128; 153; 233; 129; 147; 229; 164; 170; 229; 136; 157; 232; 136; 135; 231; 165; 158; 229; 144; 140; 229; 156; 168; 227; 128; 130; 10; 232; 144; 172; 231; 137; 169; 230; 152; 175; 232; 151; 137; 232; 145; 151; 228; 187; 150; 233; 128; 160; 231; 154; 132; 239; 188; 155; 229; 135; 161; 232; 162; 171; 233; 128; 160; 231; 154; 132; 239; 188; 140; 230; 178; 146; 230; 156; 137; 228; 184; 128; 230; 168; 163; 228; 184; 141; 230; 152; 175; 232; 151; 137; 232; 145; 151; 228; 187; 150; 233; 128; 160; 231; 154; 132; 227; 128; 130; 10; 231; 148; 159; 229; 145; 189; 229; 156; 168; 228; 187; 150; 232; 163; 161; 233; 160; 173; 239; 188; 140; 233; 128; 153; 231; 148; 159; 229; 145; 189; 229; 176; 177; 230; 152; 175; 228; 186; 186; 231; 154; 132; 229; 133; 137; 227; 128; 130; 10; 229; 133; 137; 231; 133; 167; 229; 156; 168; 233; 187; 145; 230; 154; 151; 232; 163; 161; 239; 188; 140; 233; 187; 145; 230; 154; 151; 229; 141; 187; 228; 184; 141; 230; 142; 165; 229; 143; 151; 229; 133; 137; 227; 128; 130; 0]) 245;
  do t45 <- unicodeLength8 (At [229; 164; 170; 229; 136; 157; 230; 156; 137; 233; 129; 147; 239; 188; 140; 233; 129; 147; 232; 136; 135; 231; 165; 158; 229; 144; 140; 229; 156; 168; 239; 188; 140; 233; 129; 147; 229; 176; 177; 230; 152; 175; 231; 165; 158; 227; 128; 130; 10; 233; 128; 153; 233; 129; 147; 229; 164; 170; 229; 136; 157; 232; 136; 135; 231; 165; 158; 229; 144; 140; 229; 156; 168; 227; 128; 130; 10; 232; 144; 172; 231; 137; 169; 230; 152; 175; 232; 151; 137; 232; 145; 151; 228; 187; 150; 233; 128; 160; 231; 154; 132; 239; 188; 155; 229; 135; 161; 232; 162; 171; 233; 128; 160; 231; 154; 132; 239; 188; 140; 230; 178; 146; 230; 156; 137; 228; 184; 128; 230; 168; 163; 228; 184; 141; 230; 152; 175; 232; 151; 137; 232; 145; 151; 228; 187; 150; 233; 128; 160; 231; 154; 132; 227; 128; 130; 10; 231; 148; 159; 229; 145; 189; 229; 156; 168; 228; 187; 150; 232; 163; 161; 233; 160; 173; 239; 188; 140; 233; 128; 153; 231; 148; 159; 229; 145; 189; 229; 176; 177; 230; 152; 175; 228; 186; 186; 231; 154; 132; 229; 133; 137; 227; 128; 130; 10; 229; 133; 137; 231; 133; 167; 229; 156; 168; 233; 187; 145; 230; 154; 151; 232; 163; 161; 239; 188; 140; 233; 187; 145; 230; 154; 151; 229; 141; 187; 228; 184; 141; 230; 142; 165; 229; 143; 151; 229; 133; 137; 227; 128; 130; 0]) 244;
  do t46 <- unicodeLength8 (At [229; 164; 170; 229; 136; 157; 230; 156; 137; 233; 129; 147; 239; 188; 140; 233; 129; 147; 232; 136; 135; 231; 165; 158; 229; 144; 140; 229; 156; 168; 239; 188; 140; 233; 129; 147; 229; 176; 177; 230; 152; 175; 231; 165; 158; 227; 128; 130; 10; 233; 128; 153; 233; 129; 147; 229; 164; 170; 229; 136; 157; 232; 136; 135; 231; 165; 158; 229; 144; 140; 229; 156; 168; 227; 128; 130; 10; 232; 144; 172; 231; 137; 169; 230; 152; 175; 232; 151; 137; 232; 145; 151; 228; 187; 150; 233; 128; 160; 231; 154; 132; 239; 188; 155; 229; 135; 161; 232; 162; 171; 233; 128; 160; 231; 154; 132; 239; 188; 140; 230; 178; 146; 230; 156; 137; 228; 184; 128; 230; 168; 163; 228; 184; 141; 230; 152; 175; 232; 151; 137; 232; 145; 151; 228; 187; 150; 233; 128; 160; 231; 154; 132; 227; 128; 130; 10; 231; 148; 159; 229; 145; 189; 229; 156; 168; 228; 187; 150; 232; 163; 161; 233; 160; 173; 239; 188; 140; 233; 128; 153; 231; 148; 159; 229; 145; 189; 229; 176; 177; 230; 152; 175; 228; 186; 186; 231; 154; 132; 229; 133; 137; 227; 128; 130; 10; 229; 133; 137; 231; 133; 167; 229; 156; 168; 233; 187; 145; 230; 154; 151; 232; 163; 161; 239; 188; 140; 233; 187; 145; 230; 154; 151; 229; 141; 187; 228; 184; 141; 230; 142; 165; 229; 143; 151; 229; 133; 137; 227; 128; 130; 0]) 243;
  do t47 <- unicodeLength8 (At [229; 164; 170; 229; 136; 157; 230; 156; 137; 233; 129; 147; 239; 188; 140; 233; 129; 147; 232; 136; 135; 231; 165; 158; 229; 144; 140; 229; 156; 168; 239; 188; 140; 233; 129; 147; 229; 176; 177; 230; 152; 175; 231; 165; 158; 227; 128; 130; 10; 233; 128; 153; 233; 129; 147; 229; 164; 170; 229; 136; 157; 232; 136; 135; 231; 165; 158; 229; 144; 140; 229; 156; 168; 227; 128; 130; 10; 232; 144; 172; 231; 137; 169; 230; 152; 175; 232; 151; 137; 232; 145; 151; 228; 187; 150; 233; 128; 160; 231; 154; 132; 239; 188; 155; 229; 135; 161; 232; 162; 171; 233; 128; 160; 231; 154; 132; 239; 188; 140; 230; 178; 146; 230; 156; 137; 228; 184; 128; 230; 168; 163; 228; 184; 141; 230; 152; 175; 232; 151; 137; 232; 145; 151; 228; 187; 150; 233; 128; 160; 231; 154; 132; 227; 128; 130; 10; 231; 148; 159; 229; 145; 189; 229; 156; 168; 228; 187; 150; 232; 163; 161; 233; 160; 173; 239; 188; 140; 233; 128; 153; 231; 148; 159; 229; 145; 189; 229; 176; 177; 230; 152; 175; 228; 186; 186; 231; 154; 132; 229; 133; 137; 227; 128; 130; 10; 229; 133; 137; 231; 133; 167; 229; 156; 168; 233; 187; 145; 230; 154; 151; 232; 163; 161; 239; 188; 140; 233; 187; 145; 230; 154; 151; 229; 141; 187; 228; 184; 141; 230; 142; 165; 229; 143; 151; 229; 133; 137; 227; 128; 130; 0]) 242;
  do t48 <- unicodeLength8 (At [229; 164; 170; 229; 136; 157; 230; 156; 137; 233; 129; 147; 239; 188; 140; 233; 129; 147; 232; 136; 135; 231; 165; 158; 229; 144; 140; 229; 156; 168; 239; 188; 140; 233; 129; 147; 229; 176; 177; 230; 152; 175; 231; 165; 158; 227; 128; 130; 10; 233; 128; 153; 233; 129; 147; 229; 164; 170; 229; 136; 157; 232; 136; 135; 231; 165; 158; 229; 144; 140; 229; 156; 168; 227; 128; 130; 10; 232; 144; 172; 231; 137; 169; 230; 152; 175; 232; 151; 137; 232; 145; 151; 228; 187; 150; 233; 128; 160; 231; 154; 132; 239; 188; 155; 229; 135; 161; 232; 162; 171; 233; 128; 160; 231; 154; 132; 239; 188; 140; 230; 178; 146; 230; 156; 137; 228; 184; 128; 230; 168; 163; 228; 184; 141; 230; 152; 175; 232; 151; 137; 232; 145; 151; 228; 187; 150; 233; 128; 160; 231; 154; 132; 227; 128; 130; 10; 231; 148; 159; 229; 145; 189; 229; 156; 168; 228; 187; 150; 232; 163; 161; 233; 160; 173; 239; 188; 140; 233; 128; 153; 231; 148; 159; 229; 145; 189; 229; 176; 177; 230; 152; 175; 228; 186; 186; 231; 154; 132; 229; 133; 137; 227; 128; 130; 10; 229; 133; 137; 231; 133; 167; 229; 156; 168; 233; 187; 145; 230; 154; 151; 232; 163; 161; 239; 188; 140; 233; 187; 145; 230; 154; 151; 229; 141; 187; 228; 184; 141; 230; 142; 165; 229; 143; 151; 229; 133; 137; 227; 128; 130; 0]) 241;
  do t49 <- unicodeLength8 (At [229; 164; 170; 229; 136; 157; 230; 156; 137; 233; 129; 147; 239; 188; 140; 233; 129; 147; 232; 136; 135; 231; 165; 158; 229; 144; 140; 229; 156; 168; 239; 188; 140; 233; 129; 147; 229; 176; 177; 230; 152; 175; 231; 165; 158; 227; 128; 130; 10; 233; 128; 153; 233; 129; 147; 229; 164; 170; 229; 136; 157; 232; 136; 135; 231; 165; 158; 229; 144; 140; 229; 156; 168; 227; 128; 130; 10; 232; 144; 172; 231; 137; 169; 230; 152; 175; 232; 151; 137; 232; 145; 151; 228; 187; 150; 233; 128; 160; 231; 154; 132; 239; 188; 155; 229; 135; 161; 232; 162; 171; 233; 128; 160; 231; 154; 132; 239; 188; 140; 230; 178; 146; 230; 156; 137; 228; 184; 128; 230; 168; 163; 228; 184; 141; 230; 152; 175; 232; 151; 137; 232; 145; 151; 228; 187; 150; 233; 128; 160; 231; 154; 132; 227; 128; 130; 10; 231; 148; 159; 229; 145; 189; 229; 156; 168; 228; 187; 150; 232; 163; 161; 233; 160; 173; 239; 188; 140; 233; 128; 153; 231; 148; 159; 229; 145; 189; 229; 176; 177; 230; 152; 175; 228; 186; 186; 231; 154; 132; 229; 133; 137; 227; 128; 130; 10; 229; 133; 137; 231; 133; 167; 229; 156; 168; 233; 187; 145; 230; 154; 151; 232; 163; 161; 239; 188; 140; 233; 187; 145; 230; 154; 151; 229; 141; 187; 228; 184; 141; 230; 142; 165; 229; 143; 151; 229; 133; 137; 227; 128; 130; 0]) 240;
  do t50 <- unicodeLength8 (At [229; 164; 170; 229; 136; 157; 230; 156; 137; 233; 129; 147; 239; 188; 140; 233; 129; 147; 232; 136; 135; 231; 165; 158; 229; 144; 140; 229; 156; 168; 239; 188; 140; 233; 129; 147; 229; 176; 177; 230; 152; 175; 231; 165; 158; 227; 128; 130; 10; 233; 128; 153; 233; 129; 147; 229; 164; 170; 229; 136; 157; 232; 136; 135; 231; 165; 158; 229; 144; 140; 229; 156; 168; 227; 128; 130; 10; 232; 144; 172; 231; 137; 169; 230; 152; 175; 232; 151; 137; 232; 145; 151; 228; 187; 150; 233; 128; 160; 231; 154; 132; 239; 188; 155; 229; 135; 161; 232; 162; 171; 233; 128; 160; 231; 154; 132; 239; 188; 140; 230; 178; 146; 230; 156; 137; 228; 184; 128; 230; 168; 163; 228; 184; 141; 230; 152; 175; 232; 151; 137; 232; 145; 151; 228; 187; 150; 233; 128; 160; 231; 154; 132; 227; 128; 130; 10; 231; 148; 159; 229; 145; 189; 229; 156; 168; 228; 187; 150; 232; 163; 161; 233; 160; 173; 239; 188; 140; 233; 128; 153; 231; 148; 159; 229; 145; 189; 229; 176; 177; 230; 152; 175; 228; 186; 186; 231; 154; 132; 229; 133; 137; 227; 128; 130; 10; 229; 133; 137; 231; 133; 167; 229; 156; 168; 233; 187; 145; 230; 154; 151; 232; 163; 161; 239; 188; 140; 233; 187; 145; 230; 154; 151; 229; 141; 187; 228; 184; 141; 230; 142; 165; 229; 143; 151; 229; 133; 137; 227; 128; 130; 0]) 239;
  do t51 <- unicodeLength8 (At [229; 164; 170; 229; 136; 157; 230; 156; 137; 233; 129; 147; 239; 188; 140; 233; 129; 147; 232; 136; 135; 231; 165; 158; 229; 144; 140; 229; 156; 168; 239; 188; 140; 233; 129; 147; 229; 176; 177; 230; 152; 175; 231; 165; 158; 227; 128; 130; 10; 233; 128; 153; 233; 129; 147; 229; 164; 170; 229; 136; 157; 232; 136; 135; 231; 165; 158; 229; 144; 140; 229; 156; 168; 227; 128; 130; 10; 232; 144; 172; 231; 137; 169; 230; 152; 175; 232; 151; 137; 232; 145; 151; 228; 187; 150; 233; 128; 160; 231; 154; 132; 239; 188; 155; 229; 135; 161; 232; 162; 171; 233; 128; 160; 231; 154; 132; 239; 188; 140; 230; 178; 146; 230; 156; 137; 228; 184; 128; 230; 168; 163; 228; 184; 141; 230; 152; 175; 232; 151; 137; 232; 145; 151; 228; 187; 150; 233; 128; 160; 231; 154; 132; 227; 128; 130; 10; 231; 148; 159; 229; 145; 189; 229; 156; 168; 228; 187; 150; 232; 163; 161; 233; 160; 173; 239; 188; 140; 233; 128; 153; 231; 148; 159; 229; 145; 189; 229; 176; 177; 230; 152; 175; 228; 186; 186; 231; 154; 132; 229; 133; 137; 227; 128; 130; 10; 229; 133; 137; 231; 133; 167; 229; 156; 168; 233; 187; 145; 230; 154; 151; 232; 163; 161; 239; 188; 140; 233; 187; 145; 230; 154; 151; 229; 141; 187; 228; 184; 141; 230; 142; 165; 229; 143; 151; 229; 133; 137; 227; 128; 130; 0]) 238;
  do t52 <- unicodeLength8 (At [229; 164; 170; 229; 136; 157; 230; 156; 137; 233; 129; 147; 239; 188; 140; 233; 129; 147; 232; 136; 135; 231; 165; 158; 229; 144; 140; 229; 156; 168; 239; 188; 140; 233; 129; 147; 229; 176; 177; 230; 152; 175; 231; 165; 158; 227; 128; 130; 10; 233; 128; 153; 233; 129; 147; 229; 164; 170; 229; 136; 157; 232; 136; 135; 231; 165; 158; 229; 144; 140; 229; 156; 168; 227; 128; 130; 10; 232; 144; 172; 231; 137; 169; 230; 152; 175; 232; 151; 137; 232; 145; 151; 228; 187; 150; 233; 128; 160; 231; 154; 132; 239; 188; 155; 229; 135; 161; 232; 162; 171; 233; 128; 160; 231; 154; 132; 239; 188; 140; 230; 178; 146; 230; 156; 137; 228; 184; 128; 230; 168; 163; 228; 184; 141; 230; 152; 175; 232; 151; 137; 232; 145; 151; 228; 187; 150; 233; 128; 160; 231; 154; 132; 227; 128; 130; 10; 231; 148; 159; 229; 145; 189; 229; 156; 168; 228; 187; 150; 232; 163; 161; 233; 160; 173; 239; 188; 140; 233; 128; 153; 231; 148; 159; 229; 145; 189; 229; 176; 177; 230; 152; 175; 228; 186; 186; 231; 154; 132; 229; 133; 137; 227; 128; 130; 10; 229; 133; 137; 231; 133; 167; 229; 156; 168; 233; 187; 145; 230; 154; 151; 232; 163; 161; 239; 188; 140; 233; 187; 145; 230; 154; 151; 229; 141; 187; 228; 184; 141; 230; 142; 165; 229; 143; 151; 229; 133; 137; 227; 128; 130; 0]) 237;
  do t53 <- unicodeLength8 (At [229; 164; 170; 229; 136; 157; 230; 156; 137; 233; 129; 147; 239; 188; 140; 233; 129; 147; 232; 136; 135; 231; 165; 158; 229; 144; 140; 229; 156; 168; 239; 188; 140; 233; 129; 147; 229; 176; 177; 230; 152; 175; 231; 165; 158; 227; 128; 130; 10; 233; 128; 153; 233; 129; 147; 229; 164; 170; 229; 136; 157; 232; 136; 135; 231; 165; 158; 229; 144; 140; 229; 156; 168; 227; 128; 130; 10; 232; 144; 172; 231; 137; 169; 230; 152; 175; 232; 151; 137; 232; 145; 151; 228; 187; 150; 233; 128; 160; 231; 154; 132; 239; 188; 155; 229; 135; 161; 232; 162; 171; 233; 128; 160; 231; 154; 132; 239; 188; 140; 230; 178; 146; 230; 156; 137; 228; 184; 128; 230; 168; 163; 228; 184; 141; 230; 152; 175; 232; 151; 137; 232; 145; 151; 228; 187; 150; 233; 128; 160; 231; 154; 132; 227; 128; 130; 10; 231; 148; 159; 229; 145; 189; 229; 156; 168; 228; 187; 150; 232; 163; 161; 233; 160; 173; 239; 188; 140; 233; 128; 153; 231; 148; 159; 229; 145; 189; 229; 176; 177; 230; 152; 175; 228; 186; 186; 231; 154; 132; 229; 133; 137; 227; 128; 130; 10; 229; 133; 137; 231; 133; 167; 229; 156; 168; 233; 187; 145; 230; 154; 151; 232; 163; 161; 239; 188; 140; 233; 187; 145; 230; 154; 151; 229; 141; 187; 228; 184; 141; 230; 142; 165; 229; 143; 151; 229; 133; 137; 227; 128; 130; 0]) 236;
  do t54 <- unicodeLength8 (At [229; 164; 170; 229; 136; 157; 230; 156; 137; 233; 129; 147; 239; 188; 140; 233; 129; 147; 232; 136; 135; 231; 165; 158; 229; 144; 140; 229; 156; 168; 239; 188; 140; 233; 129; 147; 229; 176; 177; 230; 152; 175; 231; 165; 158; 227; 128; 130; 10; 233; 128; 153; 233; 129; 147; 229; 164; 170; 229; 136; 157; 232; 136; 135; 231; 165; 158; 229; 144; 140; 229; 156; 168; 227; 128; 130; 10; 232; 144; 172; 231; 137; 169; 230; 152; 175; 232; 151; 137; 232; 145; 151; 228; 187; 150; 233; 128; 160; 231; 154; 132; 239; 188; 155; 229; 135; 161; 232; 162; 171; 233; 128; 160; 231; 154; 132; 239; 188; 140; 230; 178; 146; 230; 156; 137; 228; 184; 128; 230; 168; 163; 228; 184; 141; 230; 152; 175; 232; 151; 137; 232; 145; 151; 228; 187; 150; 233; 128; 160; 231; 154; 132; 227; 128; 130; 10; 231; 148; 159; 229; 145; 189; 229; 156; 168; 228; 187; 150; 232; 163; 161; 233; 160; 173; 239; 188; 140; 233; 128; 153; 231; 148; 159; 229; 145; 189; 229; 176; 177; 230; 152; 175; 228; 186; 186; 231; 154; 132; 229; 133; 137; 227; 128; 130; 10; 229; 133; 137; 231; 133; 167; 229; 156; 168; 233; 187; 145; 230; 154; 151; 232; 163; 161; 239; 188; 140; 233; 187; 145; 230; 154; 151; 229; 141; 187; 228; 184; 141; 230; 142; 165; 229; 143; 151; 229; 133; 137; 227; 128; 130; 0]) 235;
  do t55 <- unicodeLength8 (At [229; 164; 170; 229; 136; 157; 230; 156; 137; 233; 129; 147; 239; 188; 140; 233; 129; 147; 232; 136; 135; 231; 165; 158; 229; 144; 140; 229; 156; 168; 239; 188; 140; 233; 129; 147; 229; 176; 177; 230; 152; 175; 231; 165; 158; 227; 128; 130; 10; 233; 128; 153; 233; 129; 147; 229; 164; 170; 229; 136; 157; 232; 136; 135; 231; 165; 158; 229; 144; 140; 229; 156; 168; 227; 128; 130; 10; 232; 144; 172; 231; 137; 169; 230; 152; 175; 232; 151; 137; 232; 145; 151; 228; 187; 150; 233; 128; 160; 231; 154; 132; 239; 188; 155; 229; 135; 161; 232; 162; 171; 233; 128; 160; 231; 154; 132; 239; 188; 140; 230; 178; 146; 230; 156; 137; 228; 184; 128; 230; 168; 163; 228; 184; 141; 230; 152; 175; 232; 151; 137; 232; 145; 151; 228; 187; 150; 233; 128; 160; 231; 154; 132; 227; 128; 130; 10; 231; 148; 159; 229; 145; 189; 229; 156; 168; 228; 187; 150; 232; 163; 161; 233; 160; 173; 239; 188; 140; 233; 128; 153; 231; 148; 159; 229; 145; 189; 229; 176; 177; 230; 152; 175; 228; 186; 186; 231; 154; 132; 229; 133; 137; 227; 128; 130; 10; 229; 133; 137; 231; 133; 167; 229; 156; 168; 233; 187; 145; 230; 154; 151; 232; 163; 161; 239; 188; 140; 233; 187; 145; 230; 154; 151; 229; 141; 187; 228; 184; 141; 230; 142; 165; 229; 143; 151; 229; 133; 137; 227; 128; 130; 0]) 234;
  do t56 <- unicodeLength8 (At [229; 164; 170; 229; 136; 157; 230; 156; 137; 233; 129; 147; 239; 188; 140; 233; 129; 147; 232; 136; 135; 231; 165; 158; 229; 144; 140; 229; 156; 168; 239; 188; 140; 233; 129; 147; 229; 176; 177; 230; 152; 175; 231; 165; 158; 227; 128; 130; 10; 233; 128; 153; 233; 129; 147; 229; 164; 170; 229; 136; 157; 232; 136; 135; 231; 165; 158; 229; 144; 140; 229; 156; 168; 227; 128; 130; 10; 232; 144; 172; 231; 137; 169; 230; 152; 175; 232; 151; 137; 232; 145; 151; 228; 187; 150; 233; 128; 160; 231; 154; 132; 239; 188; 155; 229; 135; 161; 232; 162; 171; 233; 128; 160; 231; 154; 132; 239; 188; 140; 230; 178; 146; 230; 156; 137; 228; 184; 128; 230; 168; 163; 228; 184; 141; 230; 152; 175; 232; 151; 137; 232; 145; 151; 228; 187; 150; 233; 128; 160; 231; 154; 132; 227; 128; 130; 10; 231; 148; 159; 229; 145; 189; 229; 156; 168; 228; 187; 150; 232; 163; 161; 233; 160; 173; 239; 188; 140; 233; 128; 153; 231; 148; 159; 229; 145; 189; 229; 176; 177; 230; 152; 175; 228; 186; 186; 231; 154; 132; 229; 133; 137; 227; 128; 130; 10; 229; 133; 137; 231; 133; 167; 229; 156; 168; 233; 187; 145; 230; 154; 151; 232; 163; 161; 239; 188; 140; 233; 187; 145; 230; 154; 151; 229; 141; 187; 228; 184; 141; 230; 142; 165; 229; 143; 151; 229; 133; 137; 227; 128; 130; 0]) 233;
  do t57 <- unicodeLength8 (At [229; 164; 170; 229; 136; 157; 230; 156; 137; 233; 129; 147; 239; 188; 140; 233; 129; 147; 232; 136; 135; 231; 165; 158; 229; 144; 140; 229; 156; 168; 239; 188; 140; 233; 129; 147; 229; 176; 177; 230; 152; 175; 231; 165; 158; 227; 128; 130; 10; 233; 128; 153; 233; 129; 147; 229; 164; 170; 229; 136; 157; 232; 136; 135; 231; 165; 158; 229; 144; 140; 229; 156; 168; 227; 128; 130; 10; 232; 144; 172; 231; 137; 169; 230; 152; 175; 232; 151; 137; 232; 145; 151; 228; 187; 150; 233; 128; 160; 231; 154; 132; 239; 188; 155; 229; 135; 161; 232; 162; 171; 233; 128; 160; 231; 154; 132; 239; 188; 140; 230; 178; 146; 230; 156; 137; 228; 184; 128; 230; 168; 163; 228; 184; 141; 230; 152; 175; 232; 151; 137; 232; 145; 151; 228; 187; 150; 233; 128; 160; 231; 154; 132; 227; 128; 130; 10; 231; 148; 159; 229; 145; 189; 229; 156; 168; 228; 187; 150; 232; 163; 161; 233; 160; 173; 239; 188; 140; 233; 128; 153; 231; 148; 159; 229; 145; 189; 229; 176; 177; 230; 152; 175; 228; 186; 186; 231; 154; 132; 229; 133; 137; 227; 128; 130; 10; 229; 133; 137; 231; 133; 167; 229; 156; 168; 233; 187; 145; 230; 154; 151; 232; 163; 161; 239; 188; 140; 233; 187; 145; 230; 154; 151; 229; 141; 187; 228; 184; 141; 230; 142; 165; 229; 143; 151; 229; 133; 137; 227; 128; 130; 0]) 232;
  do t58 <- unicodeLength8 (At [229; 164; 170; 229; 136; 157; 230; 156; 137; 233; 129; 147; 239; 188; 140; 233; 129; 147; 232; 136; 135; 231; 165; 158; 229; 144; 140; 229; 156; 168; 239; 188; 140; 233; 129; 147; 229; 176; 177; 230; 152; 175; 231; 165; 158; 227; 128; 130; 10; 233; 128; 153; 233; 129; 147; 229; 164; 170; 229; 136; 157; 232; 136; 135; 231; 165; 158; 229; 144; 140; 229; 156; 168; 227; 128; 130; 10; 232; 144; 172; 231; 137; 169; 230; 152; 175; 232; 151; 137; 232; 145; 151; 228; 187; 150; 233; 128; 160; 231; 154; 132; 239; 188; 155; 229; 135; 161; 232; 162; 171; 233; 128; 160; 231; 154; 132; 239; 188; 140; 230; 178; 146; 230; 156; 137; 228; 184; 128; 230; 168; 163; 228; 184; 141; 230; 152; 175; 232; 151; 137; 232; 145; 151; 228; 187; 150; 233; 128; 160; 231; 154; 132; 227; 128; 130; 10; 231; 148; 159; 229; 145; 189; 229; 156; 168; 228; 187; 150; 232; 163; 161; 233; 160; 173; 239; 188; 140; 233; 128; 153; 231; 148; 159; 229; 145; 189; 229; 176; 177; 230; 152; 175; 228; 186; 186; 231; 154; 132; 229; 133; 137; 227; 128; 130; 10; 229; 133; 137; 231; 133; 167; 229; 156; 168; 233; 187; 145; 230; 154; 151; 232; 163; 161; 239; 188; 140; 233; 187; 145; 230; 154; 151; 229; 141; 187; 228; 184; 141; 230; 142; 165; 229; 143; 151; 229; 133; 137; 227; 128; 130; 0]) 231;
  do t59 <- unicodeLength8 (At [229; 164; 170; 229; 136; 157; 230; 156; 137; 233; 129; 147; 239; 188; 140; 233; 129; 147; 232; 136; 135; 231; 165; 158; 229; 144; 140; 229; 156; 168; 239; 188; 140; 233; 129; 147; 229; 176; 177; 230; 152; 175; 231; 165; 158; 227; 128; 130; 10; 233; 128; 153; 233; 129; 147; 229; 164; 170; 229; 136; 157; 232; 136; 135; 231; 165; 158; 229; 144; 140; 229; 156; 168; 227; 128; 130; 10; 232; 144; 172; 231; 137; 169; 230; 152; 175; 232; 151; 137; 232; 145; 151; 228; 187; 150; 233; 128; 160; 231; 154; 132; 239; 188; 155; 229; 135; 161; 232; 162; 171; 233; 128; 160; 231; 154; 132; 239; 188; 140; 230; 178; 146; 230; 156; 137; 228; 184; 128; 230; 168; 163; 228; 184; 141; 230; 152; 175; 232; 151; 137; 232; 145; 151; 228; 187; 150; 233; 128; 160; 231; 154; 132; 227; 128; 130; 10; 231; 148; 159; 229; 145; 189; 229; 156; 168; 228; 187; 150; 232; 163; 161; 233; 160; 173; 239; 188; 140; 233; 128; 153; 231; 148; 159; 229; 145; 189; 229; 176; 177; 230; 152; 175; 228; 186; 186; 231; 154; 132; 229; 133; 137; 227; 128; 130; 10; 229; 133; 137; 231; 133; 167; 229; 156; 168; 233; 187; 145; 230; 154; 151; 232; 163; 161; 239; 188; 140; 233; 187; 145; 230; 154; 151; 229; 141; 187; 228; 184; 141; 230; 142; 165; 229; 143; 151; 229; 133; 137; 227; 128; 130; 0]) 230;
  do t60 <- unicodeLength8 (At [229; 164; 170; 229; 136; 157; 230; 156; 137; 233; 129; 147; 239; 188; 140; 233; 129; 147; 232; 136; 135; 231; 165; 158; 229; 144; 140; 229; 156; 168; 239; 188; 140; 233; 129; 147; 229; 176; 177; 230; 152; 175; 231; 165; 158; 227; 128; 130; 10; 233; 128; 153; 233; 129; 147; 229; 164; 170; 229; 136; 157; 232; 136; 135; 231; 165; 158; 229; 144; 140; 229; 156; 168; 227; 128; 130; 10; 232; 144; 172; 231; 137; 169; 230; 152; 175; 232; 151; 137; 232; 145; 151; 228; 187; 150; 233; 128; 160; 231; 154; 132; 239; 188; 155; 229; 135; 161; 232; 162; 171; 233; 128; 160; 231; 154; 132; 239; 188; 140; 230; 178; 146; 230; 156; 137; 228; 184; 128; 230; 168; 163; 228; 184; 141; 230; 152; 175; 232; 151; 137; 232; 145; 151; 228; 187; 150; 233; 128; 160; 231; 154; 132; 227; 128; 130; 10; 231; 148; 159; 229; 145; 189; 229; 156; 168; 228; 187; 150; 232; 163; 161; 233; 160; 173; 239; 188; 140; 233; 128; 153; 231; 148; 159; 229; 145; 189; 229; 176; 177; 230; 152; 175; 228; 186; 186; 231; 154; 132; 229; 133; 137; 227; 128; 130; 10; 229; 133; 137; 231; 133; 167; 229; 156; 168; 233; 187; 145; 230; 154; 151; 232; 163; 161; 239; 188; 140; 233; 187; 145; 230; 154; 151; 229; 141; 187; 228; 184; 141; 230; 142; 165; 229; 143; 151; 229; 133; 137; 227; 128; 130; 0]) 229;
  do t61 <- unicodeLength8 (At [229; 164; 170; 229; 136; 157; 230; 156; 137; 233; 129; 147; 239; 188; 140; 233; 129; 147; 232; 136; 135; 231; 165; 158; 229; 144; 140; 229; 156; 168; 239; 188; 140; 233; 129; 147; 229; 176; 177; 230; 152; 175; 231; 165; 158; 227; 128; 130; 10; 233; 128; 153; 233; 129; 147; 229; 164; 170; 229; 136; 157; 232; 136; 135; 231; 165; 158; 229; 144; 140; 229; 156; 168; 227; 128; 130; 10; 232; 144; 172; 231; 137; 169; 230; 152; 175; 232; 151; 137; 232; 145; 151; 228; 187; 150; 233; 128; 160; 231; 154; 132; 239; 188; 155; 229; 135; 161; 232; 162; 171; 233; 128; 160; 231; 154; 132; 239; 188; 140; 230; 178; 146; 230; 156; 137; 228; 184; 128; 230; 168; 163; 228; 184; 141; 230; 152; 175; 232; 151; 137; 232; 145; 151; 228; 187; 150; 233; 128; 160; 231; 154; 132; 227; 128; 130; 10; 231; 148; 159; 229; 145; 189; 229; 156; 168; 228; 187; 150; 232; 163; 161; 233; 160; 173; 239; 188; 140; 233; 128; 153; 231; 148; 159; 229; 145; 189; 229; 176; 177; 230; 152; 175; 228; 186; 186; 231; 154; 132; 229; 133; 137; 227; 128; 130; 10; 229; 133; 137; 231; 133; 167; 229; 156; 168; 233; 187; 145; 230; 154; 151; 232; 163; 161; 239; 188; 140; 233; 187; 145; 230; 154; 151; 229; 141; 187; 228; 184; 141; 230; 142; 165; 229; 143; 151; 229; 133; 137; 227; 128; 130; 0]) 228;
  do t62 <- unicodeLength8 (At [229; 164; 170; 229; 136; 157; 230; 156; 137; 233; 129; 147; 239; 188; 140; 233; 129; 147; 232; 136; 135; 231; 165; 158; 229; 144; 140; 229; 156; 168; 239; 188; 140; 233; 129; 147; 229; 176; 177; 230; 152; 175; 231; 165; 158; 227; 128; 130; 10; 233; 128; 153; 233; 129; 147; 229; 164; 170; 229; 136; 157; 232; 136; 135; 231; 165; 158; 229; 144; 140; 229; 156; 168; 227; 128; 130; 10; 232; 144; 172; 231; 137; 169; 230; 152; 175; 232; 151; 137; 232; 145; 151; 228; 187; 150; 233; 128; 160; 231; 154; 132; 239; 188; 155; 229; 135; 161; 232; 162; 171; 233; 128; 160; 231; 154; 132; 239; 188; 140; 230; 178; 146; 230; 156; 137; 228; 184; 128; 230; 168; 163; 228; 184; 141; 230; 152; 175; 232; 151; 137; 232; 145; 151; 228; 187; 150; 233; 128; 160; 231; 154; 132; 227; 128; 130; 10; 231; 148; 159; 229; 145; 189; 229; 156; 168; 228; 187; 150; 232; 163; 161; 233; 160; 173; 239; 188; 140; 233; 128; 153; 231; 148; 159; 229; 145; 189; 229; 176; 177; 230; 152; 175; 228; 186; 186; 231; 154; 132; 229; 133; 137; 227; 128; 130; 10; 229; 133; 137; 231; 133; 167; 229; 156; 168; 233; 187; 145; 230; 154; 151; 232; 163; 161; 239; 188; 140; 233; 187; 145; 230; 154; 151; 229; 141; 187; 228; 184; 141; 230; 142; 165; 229; 143; 151; 229; 133; 137; 227; 128; 130; 0]) 227;
  do t63 <- unicodeLength8 (At [229; 164; 170; 229; 136; 157; 230; 156; 137; 233; 129; 147; 239; 188; 140; 233; 129; 147; 232; 136; 135; 231; 165; 158; 229; 144; 140; 229; 156; 168; 239; 188; 140; 233; 129; 147; 229; 176; 177; 230; 152; 175; 231; 165; 158; 227; 128; 130; 10; 233; 128; 153; 233; 129; 147; 229; 164; 170; 229; 136; 157; 232; 136; 135; 231; 165; 158; 229; 144; 140; 229; 156; 168; 227; 128; 130; 10; 232; 144; 172; 231; 137; 169; 230; 152; 175; 232; 151; 137; 232; 145; 151; 228; 187; 150; 233; 128; 160; 231; 154; 132; 239; 188; 155; 229; 135; 161; 232; 162; 171; 233; 128; 160; 231; 154; 132; 239; 188; 140; 230; 178; 146; 230; 156; 137; 228; 184; 128; 230; 168; 163; 228; 184; 141; 230; 152; 175; 232; 151; 137; 232; 145; 151; 228; 187; 150; 233; 128; 160; 231; 154; 132; 227; 128; 130; 10; 231; 148; 159; 229; 145; 189; 229; 156; 168; 228; 187; 150; 232; 163; 161; 233; 160; 173; 239; 188; 140; 233; 128; 153; 231; 148; 159; 229; 145; 189; 229; 176; 177; 230; 152; 175; 228; 186; 186; 231; 154; 132; 229; 133; 137; 227; 128; 130; 10; 229; 133; 137; 231; 133; 167; 229; 156; 168; 233; 187; 145; 230; 154; 151; 232; 163; 161; 239; 188; 140; 233; 187; 145; 230; 154; 151; 229; 141; 187; 228; 184; 141; 230; 142; 165; 229; 143; 151; 229; 133; 137; 227; 128; 130; 0]) 226;
  do t64 <- unicodeLength8 (At [229; 164; 170; 229; 136; 157; 230; 156; 137; 233; 129; 147; 239; 188; 140; 233; 129; 147; 232; 136; 135; 231; 165; 158; 229; 144; 140; 229; 156; 168; 239; 188; 140; 233; 129; 147; 229; 176; 177; 230; 152; 175; 231; 165; 158; 227; 128; 130; 10; 233; 128; 153; 233; 129; 147; 229; 164; 170; 229; 136; 157; 232; 136; 135; 231; 165; 158; 229; 144; 140; 229; 156; 168; 227; 128; 130; 10; 232; 144; 172; 231; 137; 169; 230; 152; 175; 232; 151; 137; 232; 145; 151; 228; 187; 150; 233; 128; 160; 231; 154; 132; 239; 188; 155; 229; 135; 161; 232; 162; 171; 233; 128; 160; 231; 154; 132; 239; 188; 140; 230; 178; 146; 230; 156; 137; 228; 184; 128; 230; 168; 163; 228; 184; 141; 230; 152; 175; 232; 151; 137; 232; 145; 151; 228; 187; 150; 233; 128; 160; 231; 154; 132; 227; 128; 130; 10; 231; 148; 159; 229; 145; 189; 229; 156; 168; 228; 187; 150; 232; 163; 161; 233; 160; 173; 239; 188; 140; 233; 128; 153; 231; 148; 159; 229; 145; 189; 229; 176; 177; 230; 152; 175; 228; 186; 186; 231; 154; 132; 229; 133; 137; 227; 128; 130; 10; 229; 133; 137; 231; 133; 167; 229; 156; 168; 233; 187; 145; 230; 154; 151; 232; 163; 161; 239; 188; 140; 233; 187; 145; 230; 154; 151; 229; 141; 187; 228; 184; 141; 230; 142; 165; 229; 143; 151; 229; 133; 137; 227; 128; 130; 0]) 225;
  do t65 <- unicodeLength8 (At [229; 164; 170; 229; 136; 157; 230; 156; 137; 233; 129; 147; 239; 188; 140; 233; 129; 147; 232; 136; 135; 231; 165; 158; 229; 144; 140; 229; 156; 168; 239; 188; 140; 233; 129; 147; 229; 176; 177; 230; 152; 175; 231; 165; 158; 227; 128; 130; 10; 233; 128; 153; 233; 129; 147; 229; 164; 170; 229; 136; 157; 232; 136; 135; 231; 165; 158; 229; 144; 140; 229; 156; 168; 227; 128; 130; 10; 232; 144; 172; 231; 137; 169; 230; 152; 175; 232; 151; 137; 232; 145; 151; 228; 187; 150; 233; 128; 160; 231; 154; 132; 239; 188; 155; 229; 135; 161; 232; 162; 171; 233; 128; 160; 231; 154; 132; 239; 188; 140; 230; 178; 146; 230; 156; 137; 228; 184; 128; 230; 168; 163; 228; 184; 141; 230; 152; 175; 232; 151; 137; 232; 145; 151; 228; 187; 150; 233; 128; 160; 231; 154; 132; 227; 128; 130; 10; 231; 148; 159; 229; 145; 189; 229; 156; 168; 228; 187; 150; 232; 163; 161; 233; 160; 173; 239; 188; 140; 233; 128; 153; 231; 148; 159; 229; 145; 189; 229; 176; 177; 230; 152; 175; 228; 186; 186; 231; 154; 132; 229; 133; 137; 227; 128; 130; 10; 229; 133; 137; 231; 133; 167; 229; 156; 168; 233; 187; 145; 230; 154; 151; 232; 163; 161; 239; 188; 140; 233; 187; 145; 230; 154; 151; 229; 141; 187; 228; 184; 141; 230; 142; 165; 229; 143; 151; 229; 133; 137; 227; 128; 130; 0]) 224;
  do t66 <- unicodeLength8 (At [229; 164; 170; 229; 136; 157; 230; 156; 137; 233; 129; 147; 239; 188; 140; 233; 129; 147; 232; 136; 135; 231; 165; 158; 229; 144; 140; 229; 156; 168; 239; 188; 140; 233; 129; 147; 229; 176; 177; 230; 152; 175; 231; 165; 158; 227; 128; 130; 10; 233; 128; 153; 233; 129; 147; 229; 164; 170; 229; 136; 157; 232; 136; 135; 231; 165; 158; 229; 144; 140; 229; 156; 168; 227; 128; 130; 10; 232; 144; 172; 231; 137; 169; 230; 152; 175; 232; 151; 137; 232; 145; 151; 228; 187; 150; 233; 128; 160; 231; 154; 132; 239; 188; 155; 229; 135; 161; 232; 162; 171; 233; 128; 160; 231; 154; 132; 239; 188; 140; 230; 178; 146; 230; 156; 137; 228; 184; 128; 230; 168; 163; 228; 184; 141; 230; 152; 175; 232; 151; 137; 232; 145; 151; 228; 187; 150; 233; 128; 160; 231; 154; 132; 227; 128; 130; 10; 231; 148; 159; 229; 145; 189; 229; 156; 168; 228; 187; 150; 232; 163; 161; 233; 160; 173; 239; 188; 140; 233; 128; 153; 231; 148; 159; 229; 145; 189; 229; 176; 177; 230; 152; 175; 228; 186; 186; 231; 154; 132; 229; 133; 137; 227; 128; 130; 10; 229; 133; 137; 231; 133; 167; 229; 156; 168; 233; 187; 145; 230; 154; 151; 232; 163; 161; 239; 188; 140; 233; 187; 145; 230; 154; 151; 229; 141; 187; 228; 184; 141; 230; 142; 165; 229; 143; 151; 229; 133; 137; 227; 128; 130; 0]) 223;
  do t67 <- unicodeLength8 (At [229; 164; 170; 229; 136; 157; 230; 156; 137; 233; 129; 147; 239; 188; 140; 233; 129; 147; 232; 136; 135; 231; 165; 158; 229; 144; 140; 229; 156; 168; 239; 188; 140; 233; 129; 147; 229; 176; 177; 230; 152; 175; 231; 165; 158; 227; 128; 130; 10; 233; 128; 153; 233; 129; 147; 229; 164; 170; 229; 136; 157; 232; 136; 135; 231; 165; 158; 229; 144; 140; 229; 156; 168; 227; 128; 130; 10; 232; 144; 172; 231; 137; 169; 230; 152; 175; 232; 151; 137; 232; 145; 151; 228; 187; 150; 233; 128; 160; 231; 154; 132; 239; 188; 155; 229; 135; 161; 232; 162; 171; 233; 128; 160; 231; 154; 132; 239; 188; 140; 230; 178; 146; 230; 156; 137; 228; 184; 128; 230; 168; 163; 228; 184; 141; 230; 152; 175; 232; 151; 137; 232; 145; 151; 228; 187; 150; 233; 128; 160; 231; 154; 132; 227; 128; 130; 10; 231; 148; 159; 229; 145; 189; 229; 156; 168; 228; 187; 150; 232; 163; 161; 233; 160; 173; 239; 188; 140; 233; 128; 153; 231; 148; 159; 229; 145; 189; 229; 176; 177; 230; 152; 175; 228; 186; 186; 231; 154; 132; 229; 133; 137; 227; 128; 130; 10; 229; 133; 137; 231; 133; 167; 229; 156; 168; 233; 187; 145; 230; 154; 151; 232; 163; 161; 239; 188; 140; 233; 187; 145; 230; 154; 151; 229; 141; 187; 228; 184; 141; 230; 142; 165; 229; 143; 151; 229; 133; 137; 227; 128; 130; 0]) 222;
  do t68 <- unicodeLength8 (At [229; 164; 170; 229; 136; 157; 230; 156; 137; 233; 129; 147; 239; 188; 140; 233; 129; 147; 232; 136; 135; 231; 165; 158; 229; 144; 140; 229; 156; 168; 239; 188; 140; 233; 129; 147; 229; 176; 177; 230; 152; 175; 231; 165; 158; 227; 128; 130; 10; 233; 128; 153; 233; 129; 147; 229; 164; 170; 229; 136; 157; 232; 136; 135; 231; 165; 158; 229; 144; 140; 229; 156; 168; 227; 128; 130; 10; 232; 144; 172; 231; 137; 169; 230; 152; 175; 232; 151; 137; 232; 145; 151; 228; 187; 150; 233; 128; 160; 231; 154; 132; 239; 188; 155; 229; 135; 161; 232; 162; 171; 233; 128; 160; 231; 154; 132; 239; 188; 140; 230; 178; 146; 230; 156; 137; 228; 184; 128; 230; 168; 163; 228; 184; 141; 230; 152; 175; 232; 151; 137; 232; 145; 151; 228; 187; 150; 233; 128; 160; 231; 154; 132; 227; 128; 130; 10; 231; 148; 159; 229; 145; 189; 229; 156; 168; 228; 187; 150; 232; 163; 161; 233; 160; 173; 239; 188; 140; 233; 128; 153; 231; 148; 159; 229; 145; 189; 229; 176; 177; 230; 152; 175; 228; 186; 186; 231; 154; 132; 229; 133; 137; 227; 128; 130; 10; 229; 133; 137; 231; 133; 167; 229; 156; 168; 233; 187; 145; 230; 154; 151; 232; 163; 161; 239; 188; 140; 233; 187; 145; 230; 154; 151; 229; 141; 187; 228; 184; 141; 230; 142; 165; 229; 143; 151; 229; 133; 137; 227; 128; 130; 0]) 221;
  do t69 <- unicodeLength8 (At [229; 164; 170; 229; 136; 157; 230; 156; 137; 233; 129; 147; 239; 188; 140; 233; 129; 147; 232; 136; 135; 231; 165; 158; 229; 144; 140; 229; 156; 168; 239; 188; 140; 233; 129; 147; 229; 176; 177; 230; 152; 175; 231; 165; 158; 227; 128; 130; 10; 233; 128; 153; 233; 129; 147; 229; 164; 170; 229; 136; 157; 232; 136; 135; 231; 165; 158; 229; 144; 140; 229; 156; 168; 227; 128; 130; 10; 232; 144; 172; 231; 137; 169; 230; 152; 175; 232; 151; 137; 232; 145; 151; 228; 187; 150; 233; 128; 160; 231; 154; 132; 239; 188; 155; 229; 135; 161; 232; 162; 171; 233; 128; 160; 231; 154; 132; 239; 188; 140; 230; 178; 146; 230; 156; 137; 228; 184; 128; 230; 168; 163; 228; 184; 141; 230; 152; 175; 232; 151; 137; 232; 145; 151; 228; 187; 150; 233; 128; 160; 231; 154; 132; 227; 128; 130; 10; 231; 148; 159; 229; 145; 189; 229; 156; 168; 228; 187; 150; 232; 163; 161; 233; 160; 173; 239; 188; 140; 233; 128; 153; 231; 148; 159; 229; 145; 189; 229; 176; 177; 230; 152; 175; 228; 186; 186; 231; 154; 132; 229; 133; 137; 227; 128; 130; 10; 229; 133; 137; 231; 133; 167; 229; 156; 168; 233; 187; 145; 230; 154; 151; 232; 163; 161; 239; 188; 140; 233; 187; 145; 230; 154; 151; 229; 141; 187; 228; 184; 141; 230; 142; 165; 229; 143; 151; 229; 133; 137; 227; 128; 130; 0]) 220;
  do t70 <- unicodeLength8 (At [229; 164; 170; 229; 136; 157; 230; 156; 137; 233; 129; 147; 239; 188; 140; 233; 129; 147; 232; 136; 135; 231; 165; 158; 229; 144; 140; 229; 156; 168; 239; 188; 140; 233; 129; 147; 229; 176; 177; 230; 152; 175; 231; 165; 158; 227; 128; 130; 10; 233; 128; 153; 233; 129; 147; 229; 164; 170; 229; 136; 157; 232; 136; 135; 231; 165; 158; 229; 144; 140; 229; 156; 168; 227; 128; 130; 10; 232; 144; 172; 231; 137; 169; 230; 152; 175; 232; 151; 137; 232; 145; 151; 228; 187; 150; 233; 128; 160; 231; 154; 132; 239; 188; 155; 229; 135; 161; 232; 162; 171; 233; 128; 160; 231; 154; 132; 239; 188; 140; 230; 178; 146; 230; 156; 137; 228; 184; 128; 230; 168; 163; 228; 184; 141; 230; 152; 175; 232; 151; 137; 232; 145; 151; 228; 187; 150; 233; 128; 160; 231; 154; 132; 227; 128; 130; 10; 231; 148; 159; 229; 145; 189; 229; 156; 168; 228; 187; 150; 232; 163; 161; 233; 160; 173; 239; 188; 140; 233; 128; 153; 231; 148; 159; 229; 145; 189; 229; 176; 177; 230; 152; 175; 228; 186; 186; 231; 154; 132; 229; 133; 137; 227; 128; 130; 10; 229; 133; 137; 231; 133; 167; 229; 156; 168; 233; 187; 145; 230; 154; 151; 232; 163; 161; 239; 188; 140; 233; 187; 145; 230; 154; 151; 229; 141; 187; 228; 184; 141; 230; 142; 165; 229; 143; 151; 229; 133; 137; 227; 128; 130; 0]) 219;
  do t71 <- unicodeLength8 (At [229; 164; 170; 229; 136; 157; 230; 156; 137; 233; 129; 147; 239; 188; 140; 233; 129; 147; 232; 136; 135; 231; 165; 158; 229; 144; 140; 229; 156; 168; 239; 188; 140; 233; 129; 147; 229; 176; 177; 230; 152; 175; 231; 165; 158; 227; 128; 130; 10; 233; 128; 153; 233; 129; 147; 229; 164; 170; 229; 136; 157; 232; 136; 135; 231; 165; 158; 229; 144; 140; 229; 156; 168; 227; 128; 130; 10; 232; 144; 172; 231; 137; 169; 230; 152; 175; 232; 151; 137; 232; 145; 151; 228; 187; 150; 233; 128; 160; 231; 154; 132; 239; 188; 155; 229; 135; 161; 232; 162; 171; 233; 128; 160; 231; 154; 132; 239; 188; 140; 230; 178; 146; 230; 156; 137; 228; 184; 128; 230; 168; 163; 228; 184; 141; 230; 152; 175; 232; 151; 137; 232; 145; 151; 228; 187; 150; 233; 128; 160; 231; 154; 132; 227; 128; 130; 10; 231; 148; 159; 229; 145; 189; 229; 156; 168; 228; 187; 150; 232; 163; 161; 233; 160; 173; 239; 188; 140; 233; 128; 153; 231; 148; 159; 229; 145; 189; 229; 176; 177; 230; 152; 175; 228; 186; 186; 231; 154; 132; 229; 133; 137; 227; 128; 130; 10; 229; 133; 137; 231; 133; 167; 229; 156; 168; 233; 187; 145; 230; 154; 151; 232; 163; 161; 239; 188; 140; 233; 187; 145; 230; 154; 151; 229; 141; 187; 228; 184; 141; 230; 142; 165; 229; 143; 151; 229; 133; 137; 227; 128; 130; 0]) 218;
  do t72 <- unicodeLength8 (At [229; 164; 170; 229; 136; 157; 230; 156; 137; 233; 129; 147; 239; 188; 140; 233; 129; 147; 232; 136; 135; 231; 165; 158; 229; 144; 140; 229; 156; 168; 239; 188; 140; 233; 129; 147; 229; 176; 177; 230; 152; 175; 231; 165; 158; 227; 128; 130; 10; 233; 128; 153; 233; 129; 147; 229; 164; 170; 229; 136; 157; 232; 136; 135; 231; 165; 158; 229; 144; 140; 229; 156; 168; 227; 128; 130; 10; 232; 144; 172; 231; 137; 169; 230; 152; 175; 232; 151; 137; 232; 145; 151; 228; 187; 150; 233; 128; 160; 231; 154; 132; 239; 188; 155; 229; 135; 161; 232; 162; 171; 233; 128; 160; 231; 154; 132; 239; 188; 140; 230; 178; 146; 230; 156; 137; 228; 184; 128; 230; 168; 163; 228; 184; 141; 230; 152; 175; 232; 151; 137; 232; 145; 151; 228; 187; 150; 233; 128; 160; 231; 154; 132; 227; 128; 130; 10; 231; 148; 159; 229; 145; 189; 229; 156; 168; 228; 187; 150; 232; 163; 161; 233; 160; 173; 239; 188; 140; 233; 128; 153; 231; 148; 159; 229; 145; 189; 229; 176; 177; 230; 152; 175; 228; 186; 186; 231; 154; 132; 229; 133; 137; 227; 128; 130; 10; 229; 133; 137; 231; 133; 167; 229; 156; 168; 233; 187; 145; 230; 154; 151; 232; 163; 161; 239; 188; 140; 233; 187; 145; 230; 154; 151; 229; 141; 187; 228; 184; 141; 230; 142; 165; 229; 143; 151; 229; 133; 137; 227; 128; 130; 0]) 217;
  do t73 <- unicodeLength8 (At [229; 164; 170; 229; 136; 157; 230; 156; 137; 233; 129; 147; 239; 188; 140; 233; 129; 147; 232; 136; 135; 231; 165; 158; 229; 144; 140; 229; 156; 168; 239; 188; 140; 233; 129; 147; 229; 176; 177; 230; 152; 175; 231; 165; 158; 227; 128; 130; 10; 233; 128; 153; 233; 129; 147; 229; 164; 170; 229; 136; 157; 232; 136; 135; 231; 165; 158; 229; 144; 140; 229; 156; 168; 227; 128; 130; 10; 232; 144; 172; 231; 137; 169; 230; 152; 175; 232; 151; 137; 232; 145; 151; 228; 187; 150; 233; 128; 160; 231; 154; 132; 239; 188; 155; 229; 135; 161; 232; 162; 171; 233; 128; 160; 231; 154; 132; 239; 188; 140; 230; 178; 146; 230; 156; 137; 228; 184; 128; 230; 168; 163; 228; 184; 141; 230; 152; 175; 232; 151; 137; 232; 145; 151; 228; 187; 150; 233; 128; 160; 231; 154; 132; 227; 128; 130; 10; 231; 148; 159; 229; 145; 189; 229; 156; 168; 228; 187; 150; 232; 163; 161; 233; 160; 173; 239; 188; 140; 233; 128; 153; 231; 148; 159; 229; 145; 189; 229; 176; 177; 230; 152; 175; 228; 186; 186; 231; 154; 132; 229; 133; 137; 227; 128; 130; 10; 229; 133; 137; 231; 133; 167; 229; 156; 168; 233; 187; 145; 230; 154; 151; 232; 163; 161; 239; 188; 140; 233; 187; 145; 230; 154; 151; 229; 141; 187; 228; 184; 141; 230; 142; 165; 229; 143; 151; 229; 133; 137; 227; 128; 130; 0]) 216;
  do t74 <- unicodeLength8 (At [229; 164; 170; 229; 136; 157; 230; 156; 137; 233; 129; 147; 239; 188; 140; 233; 129; 147; 232; 136; 135; 231; 165; 158; 229; 144; 140; 229; 156; 168; 239; 188; 140; 233; 129; 147; 229; 176; 177; 230; 152; 175; 231; 165; 158; 227; 128; 130; 10; 233; 128; 153; 233; 129; 147; 229; 164; 170; 229; 136; 157; 232; 136; 135; 231; 165; 158; 229; 144; 140; 229; 156; 168; 227; 128; 130; 10; 232; 144; 172; 231; 137; 169; 230; 152; 175; 232; 151; 137; 232; 145; 151; 228; 187; 150; 233; 128; 160; 231; 154; 132; 239; 188; 155; 229; 135; 161; 232; 162; 171; 233; 128; 160; 231; 154; 132; 239; 188; 140; 230; 178; 146; 230; 156; 137; 228; 184; 128; 230; 168; 163; 228; 184; 141; 230; 152; 175; 232; 151; 137; 232; 145; 151; 228; 187; 150; 233; 128; 160; 231; 154; 132; 227; 128; 130; 10; 231; 148; 159; 229; 145; 189; 229; 156; 168; 228; 187; 150; 232; 163; 161; 233; 160; 173; 239; 188; 140; 233; 128; 153; 231; 148; 159; 229; 145; 189; 229; 176; 177; 230; 152; 175; 228; 186; 186; 231; 154; 132; 229; 133; 137; 227; 128; 130; 10; 229; 133; 137; 231; 133; 167; 229; 156; 168; 233; 187; 145; 230; 154; 151; 232; 163; 161; 239; 188; 140; 233; 187; 145; 230; 154; 151; 229; 141; 187; 228; 184; 141; 230; 142; 165; 229; 143; 151; 229; 133; 137; 227; 128; 130; 0]) 215;
  do t75 <- unicodeLength8 (At [229; 164; 170; 229; 136; 157; 230; 156; 137; 233; 129; 147; 239; 188; 140; 233; 129; 147; 232; 136; 135; 231; 165; 158; 229; 144; 140; 229; 156; 168; 239; 188; 140; 233; 129; 147; 229; 176; 177; 230; 152; 175; 231; 165; 158; 227; 128; 130; 10; 233; 128; 153; 233; 129; 147; 229; 164; 170; 229; 136; 157; 232; 136; 135; 231; 165; 158; 229; 144; 140; 229; 156; 168; 227; 128; 130; 10; 232; 144; 172; 231; 137; 169; 230; 152; 175; 232; 151; 137; 232; 145; 151; 228; 187; 150; 233; 128; 160; 231; 154; 132; 239; 188; 155; 229; 135; 161; 232; 162; 171; 233; 128; 160; 231; 154; 132; 239; 188; 140; 230; 178; 146; 230; 156; 137; 228; 184; 128; 230; 168; 163; 228; 184; 141; 230; 152; 175; 232; 151; 137; 232; 145; 151; 228; 187; 150; 233; 128; 160; 231; 154; 132; 227; 128; 130; 10; 231; 148; 159; 229; 145; 189; 229; 156; 168; 228; 187; 150; 232; 163; 161; 233; 160; 173; 239; 188; 140; 233; 128; 153; 231; 148; 159; 229; 145; 189; 229; 176; 177; 230; 152; 175; 228; 186; 186; 231; 154; 132; 229; 133; 137; 227; 128; 130; 10; 229; 133; 137; 231; 133; 167; 229; 156; 168; 233; 187; 145; 230; 154; 151; 232; 163; 161; 239; 188; 140; 233; 187; 145; 230; 154; 151; 229; 141; 187; 228; 184; 141; 230; 142; 165; 229; 143; 151; 229; 133; 137; 227; 128; 130; 0]) 214;
  do t76 <- unicodeLength8 (At [229; 164; 170; 229; 136; 157; 230; 156; 137; 233; 129; 147; 239; 188; 140; 233; 129; 147; 232; 136; 135; 231; 165; 158; 229; 144; 140; 229; 156; 168; 239; 188; 140; 233; 129; 147; 229; 176; 177; 230; 152; 175; 231; 165; 158; 227; 128; 130; 10; 233; 128; 153; 233; 129; 147; 229; 164; 170; 229; 136; 157; 232; 136; 135; 231; 165; 158; 229; 144; 140; 229; 156; 168; 227; 128; 130; 10; 232; 144; 172; 231; 137; 169; 230; 152; 175; 232; 151; 137; 232; 145; 151; 228; 187; 150; 233; 128; 160; 231; 154; 132; 239; 188; 155; 229; 135; 161; 232; 162; 171; 233; 128; 160; 231; 154; 132; 239; 188; 140; 230; 178; 146; 230; 156; 137; 228; 184; 128; 230; 168; 163; 228; 184; 141; 230; 152; 175; 232; 151; 137; 232; 145; 151; 228; 187; 150; 233; 128; 160; 231; 154; 132; 227; 128; 130; 10; 231; 148; 159; 229; 145; 189; 229; 156; 168; 228; 187; 150; 232; 163; 161; 233; 160; 173; 239; 188; 140; 233; 128; 153; 231; 148; 159; 229; 145; 189; 229; 176; 177; 230; 152; 175; 228; 186; 186; 231; 154; 132; 229; 133; 137; 227; 128; 130; 10; 229; 133; 137; 231; 133; 167; 229; 156; 168; 233; 187; 145; 230; 154; 151; 232; 163; 161; 239; 188; 140; 233; 187; 145; 230; 154; 151; 229; 141; 187; 228; 184; 141; 230; 142; 165; 229; 143; 151; 229; 133; 137; 227; 128; 130; 0]) 213;
  do t77 <- unicodeLength8 (At [229; 164; 170; 229; 136; 157; 230; 156; 137; 233; 129; 147; 239; 188; 140; 233; 129; 147; 232; 136; 135; 231; 165; 158; 229; 144; 140; 229; 156; 168; 239; 188; 140; 233; 129; 147; 229; 176; 177; 230; 152; 175; 231; 165; 158; 227; 128; 130; 10; 233; 128; 153; 233; 129; 147; 229; 164; 170; 229; 136; 157; 232; 136; 135; 231; 165; 158; 229; 144; 140; 229; 156; 168; 227; 128; 130; 10; 232; 144; 172; 231; 137; 169; 230; 152; 175; 232; 151; 137; 232; 145; 151; 228; 187; 150; 233; 128; 160; 231; 154; 132; 239; 188; 155; 229; 135; 161; 232; 162; 171; 233; 128; 160; 231; 154; 132; 239; 188; 140; 230; 178; 146; 230; 156; 137; 228; 184; 128; 230; 168; 163; 228; 184; 141; 230; 152; 175; 232; 151; 137; 232; 145; 151; 228; 187; 150; 233; 128; 160; 231; 154; 132; 227; 128; 130; 10; 231; 148; 159; 229; 145; 189; 229; 156; 168; 228; 187; 150; 232; 163; 161; 233; 160; 173; 239; 188; 140; 233; 128; 153; 231; 148; 159; 229; 145; 189; 229; 176; 177; 230; 152; 175; 228; 186; 186; 231; 154; 132; 229; 133; 137; 227; 128; 130; 10; 229; 133; 137; 231; 133; 167; 229; 156; 168; 233; 187; 145; 230; 154; 151; 232; 163; 161; 239; 188; 140; 233; 187; 145; 230; 154; 151; 229; 141; 187; 228; 184; 141; 230; 142; 165; 229; 143; 151; 229; 133; 137; 227; 128; 130; 0]) 212;
  do t78 <- unicodeLength8 (At [229; 164; 170; 229; 136; 157; 230; 156; 137; 233; 129; 147; 239; 188; 140; 233; 129; 147; 232; 136; 135; 231; 165; 158; 229; 144; 140; 229; 156; 168; 239; 188; 140; 233; 129; 147; 229; 176; 177; 230; 152; 175; 231; 165; 158; 227; 128; 130; 10; 233; 128; 153; 233; 129; 147; 229; 164; 170; 229; 136; 157; 232; 136; 135; 231; 165; 158; 229; 144; 140; 229; 156; 168; 227; 128; 130; 10; 232; 144; 172; 231; 137; 169; 230; 152; 175; 232; 151; 137; 232; 145; 151; 228; 187; 150; 233; 128; 160; 231; 154; 132; 239; 188; 155; 229; 135; 161; 232; 162; 171; 233; 128; 160; 231; 154; 132; 239; 188; 140; 230; 178; 146; 230; 156; 137; 228; 184; 128; 230; 168; 163; 228; 184; 141; 230; 152; 175; 232; 151; 137; 232; 145; 151; 228; 187; 150; 233; 128; 160; 231; 154; 132; 227; 128; 130; 10; 231; 148; 159; 229; 145; 189; 229; 156; 168; 228; 187; 150; 232; 163; 161; 233; 160; 173; 239; 188; 140; 233; 128; 153; 231; 148; 159; 229; 145; 189; 229; 176; 177; 230; 152; 175; 228; 186; 186; 231; 154; 132; 229; 133; 137; 227; 128; 130; 10; 229; 133; 137; 231; 133; 167; 229; 156; 168; 233; 187; 145; 230; 154; 151; 232; 163; 161; 239; 188; 140; 233; 187; 145; 230; 154; 151; 229; 141; 187; 228; 184; 141; 230; 142; 165; 229; 143; 151; 229; 133; 137; 227; 128; 130; 0]) 211;
  do t79 <- unicodeLength8 (At [229; 164; 170; 229; 136; 157; 230; 156; 137; 233; 129; 147; 239; 188; 140; 233; 129; 147; 232; 136; 135; 231; 165; 158; 229; 144; 140; 229; 156; 168; 239; 188; 140; 233; 129; 147; 229; 176; 177; 230; 152; 175; 231; 165; 158; 227; 128; 130; 10; 233; 128; 153; 233; 129; 147; 229; 164; 170; 229; 136; 157; 232; 136; 135; 231; 165; 158; 229; 144; 140; 229; 156; 168; 227; 128; 130; 10; 232; 144; 172; 231; 137; 169; 230; 152; 175; 232; 151; 137; 232; 145; 151; 228; 187; 150; 233; 128; 160; 231; 154; 132; 239; 188; 155; 229; 135; 161; 232; 162; 171; 233; 128; 160; 231; 154; 132; 239; 188; 140; 230; 178; 146; 230; 156; 137; 228; 184; 128; 230; 168; 163; 228; 184; 141; 230; 152; 175; 232; 151; 137; 232; 145; 151; 228; 187; 150; 233; 128; 160; 231; 154; 132; 227; 128; 130; 10; 231; 148; 159; 229; 145; 189; 229; 156; 168; 228; 187; 150; 232; 163; 161; 233; 160; 173; 239; 188; 140; 233; 128; 153; 231; 148; 159; 229; 145; 189; 229; 176; 177; 230; 152; 175; 228; 186; 186; 231; 154; 132; 229; 133; 137; 227; 128; 130; 10; 229; 133; 137; 231; 133; 167; 229; 156; 168; 233; 187; 145; 230; 154; 151; 232; 163; 161; 239; 188; 140; 233; 187; 145; 230; 154; 151; 229; 141; 187; 228; 184; 141; 230; 142; 165; 229; 143; 151; 229; 133; 137; 227; 128; 130; 0]) 210;
  do t80 <- unicodeLength8 (At [229; 164; 170; 229; 136; 157; 230; 156; 137; 233; 129; 147; 239; 188; 140; 233; 129; 147; 232; 136; 135; 231; 165; 158; 229; 144; 140; 229; 156; 168; 239; 188; 140; 233; 129; 147; 229; 176; 177; 230; 152; 175; 231; 165; 158; 227; 128; 130; 10; 233; 128; 153; 233; 129; 147; 229; 164; 170; 229; 136; 157; 232; 136; 135; 231; 165; 158; 229; 144; 140; 229; 156; 168; 227; 128; 130; 10; 232; 144; 172; 231; 137; 169; 230; 152; 175; 232; 151; 137; 232; 145; 151; 228; 187; 150; 233; 128; 160; 231; 154; 132; 239; 188; 155; 229; 135; 161; 232; 162; 171; 233; 128; 160; 231; 154; 132; 239; 188; 140; 230; 178; 146; 230; 156; 137; 228; 184; 128; 230; 168; 163; 228; 184; 141; 230; 152; 175; 232; 151; 137; 232; 145; 151; 228; 187; 150; 233; 128; 160; 231; 154; 132; 227; 128; 130; 10; 231; 148; 159; 229; 145; 189; 229; 156; 168; 228; 187; 150; 232; 163; 161; 233; 160; 173; 239; 188; 140; 233; 128; 153; 231; 148; 159; 229; 145; 189; 229; 176; 177; 230; 152; 175; 228; 186; 186; 231; 154; 132; 229; 133; 137; 227; 128; 130; 10; 229; 133; 137; 231; 133; 167; 229; 156; 168; 233; 187; 145; 230; 154; 151; 232; 163; 161; 239; 188; 140; 233; 187; 145; 230; 154; 151; 229; 141; 187; 228; 184; 141; 230; 142; 165; 229; 143; 151; 229; 133; 137; 227; 128; 130; 0]) 209;
  do t81 <- unicodeLength8 (At [229; 164; 170; 229; 136; 157; 230; 156; 137; 233; 129; 147; 239; 188; 140; 233; 129; 147; 232; 136; 135; 231; 165; 158; 229; 144; 140; 229; 156; 168; 239; 188; 140; 233; 129; 147; 229; 176; 177; 230; 152; 175; 231; 165; 158; 227; 128; 130; 10; 233; 128; 153; 233; 129; 147; 229; 164; 170; 229; 136; 157; 232; 136; 135; 231; 165; 158; 229; 144; 140; 229; 156; 168; 227; 128; 130; 10; 232; 144; 172; 231; 137; 169; 230; 152; 175; 232; 151; 137; 232; 145; 151; 228; 187; 150; 233; 128; 160; 231; 154; 132; 239; 188; 155; 229; 135; 161; 232; 162; 171; 233; 128; 160; 231; 154; 132; 239; 188; 140; 230; 178; 146; 230; 156; 137; 228; 184; 128; 230; 168; 163; 228; 184; 141; 230; 152; 175; 232; 151; 137; 232; 145; 151; 228; 187; 150; 233; 128; 160; 231; 154; 132; 227; 128; 130; 10; 231; 148; 159; 229; 145; 189; 229; 156; 168; 228; 187; 150; 232; 163; 161; 233; 160; 173; 239; 188; 140; 233; 128; 153; 231; 148; 159; 229; 145; 189; 229; 176; 177; 230; 152; 175; 228; 186; 186; 231; 154; 132; 229; 133; 137; 227; 128; 130; 10; 229; 133; 137; 231; 133; 167; 229; 156; 168; 233; 187; 145; 230; 154; 151; 232; 163; 161; 239; 188; 140; 233; 187; 145; 230; 154; 151; 229; 141; 187; 228; 184; 141; 230; 142; 165; 229; 143; 151; 229; 133; 137; 227; 128; 130; 0]) 208;
  do t82 <- unicodeLength8 (At [229; 164; 170; 229; 136; 157; 230; 156; 137; 233; 129; 147; 239; 188; 140; 233; 129; 147; 232; 136; 135; 231; 165; 158; 229; 144; 140; 229; 156; 168; 239; 188; 140; 233; 129; 147; 229; 176; 177; 230; 152; 175; 231; 165; 158; 227; 128; 130; 10; 233; 128; 153; 233; 129; 147; 229; 164; 170; 229; 136; 157; 232; 136; 135; 231; 165; 158; 229; 144; 140; 229; 156; 168; 227; 128; 130; 10; 232; 144; 172; 231; 137; 169; 230; 152; 175; 232; 151; 137; 232; 145; 151; 228; 187; 150; 233; 128; 160; 231; 154; 132; 239; 188; 155; 229; 135; 161; 232; 162; 171; 233; 128; 160; 231; 154; 132; 239; 188; 140; 230; 178; 146; 230; 156; 137; 228; 184; 128; 230; 168; 163; 228; 184; 141; 230; 152; 175; 232; 151; 137; 232; 145; 151; 228; 187; 150; 233; 128; 160; 231; 154; 132; 227; 128; 130; 10; 231; 148; 159; 229; 145; 189; 229; 156; 168; 228; 187; 150; 232; 163; 161; 233; 160; 173; 239; 188; 140; 233; 128; 153; 231; 148; 159; 229; 145; 189; 229; 176; 177; 230; 152; 175; 228; 186; 186; 231; 154; 132; 229; 133; 137; 227; 128; 130; 10; 229; 133; 137; 231; 133; 167; 229; 156; 168; 233; 187; 145; 230; 154; 151; 232; 163; 161; 239; 188; 140; 233; 187; 145; 230; 154; 151; 229; 141; 187; 228; 184; 141; 230; 142; 165; 229; 143; 151; 229; 133; 137; 227; 128; 130; 0]) 207;
  do t83 <- unicodeLength8 (At [229; 164; 170; 229; 136; 157; 230; 156; 137; 233; 129; 147; 239; 188; 140; 233; 129; 147; 232; 136; 135; 231; 165; 158; 229; 144; 140; 229; 156; 168; 239; 188; 140; 233; 129; 147; 229; 176; 177; 230; 152; 175; 231; 165; 158; 227; 128; 130; 10; 233; 128; 153; 233; 129; 147; 229; 164; 170; 229; 136; 157; 232; 136; 135; 231; 165; 158; 229; 144; 140; 229; 156; 168; 227; 128; 130; 10; 232; 144; 172; 231; 137; 169; 230; 152; 175; 232; 151; 137; 232; 145; 151; 228; 187; 150; 233; 128; 160; 231; 154; 132; 239; 188; 155; 229; 135; 161; 232; 162; 171; 233; 128; 160; 231; 154; 132; 239; 188; 140; 230; 178; 146; 230; 156; 137; 228; 184; 128; 230; 168; 163; 228; 184; 141; 230; 152; 175; 232; 151; 137; 232; 145; 151; 228; 187; 150; 233; 128; 160; 231; 154; 132; 227; 128; 130; 10; 231; 148; 159; 229; 145; 189; 229; 156; 168; 228; 187; 150; 232; 163; 161; 233; 160; 173; 239; 188; 140; 233; 128; 153; 231; 148; 159; 229; 145; 189; 229; 176; 177; 230; 152; 175; 228; 186; 186; 231; 154; 132; 229; 133; 137; 227; 128; 130; 10; 229; 133; 137; 231; 133; 167; 229; 156; 168; 233; 187; 145; 230; 154; 151; 232; 163; 161; 239; 188; 140; 233; 187; 145; 230; 154; 151; 229; 141; 187; 228; 184; 141; 230; 142; 165; 229; 143; 151; 229; 133; 137; 227; 128; 130; 0]) 206;
  do t84 <- unicodeLength8 (At [229; 164; 170; 229; 136; 157; 230; 156; 137; 233; 129; 147; 239; 188; 140; 233; 129; 147; 232; 136; 135; 231; 165; 158; 229; 144; 140; 229; 156; 168; 239; 188; 140; 233; 129; 147; 229; 176; 177; 230; 152; 175; 231; 165; 158; 227; 128; 130; 10; 233; 128; 153; 233; 129; 147; 229; 164; 170; 229; 136; 157; 232; 136; 135; 231; 165; 158; 229; 144; 140; 229; 156; 168; 227; 128; 130; 10; 232; 144; 172; 231; 137; 169; 230; 152; 175; 232; 151; 137; 232; 145; 151; 228; 187; 150; 233; 128; 160; 231; 154; 132; 239; 188; 155; 229; 135; 161; 232; 162; 171; 233; 128; 160; 231; 154; 132; 239; 188; 140; 230; 178; 146; 230; 156; 137; 228; 184; 128; 230; 168; 163; 228; 184; 141; 230; 152; 175; 232; 151; 137; 232; 145; 151; 228; 187; 150; 233; 128; 160; 231; 154; 132; 227; 128; 130; 10; 231; 148; 159; 229; 145; 189; 229; 156; 168; 228; 187; 150; 232; 163; 161; 233; 160; 173; 239; 188; 140; 233; 128; 153; 231; 148; 159; 229; 145; 189; 229; 176; 177; 230; 152; 175; 228; 186; 186; 231; 154; 132; 229; 133; 137; 227; 128; 130; 10; 229; 133; 137; 231; 133; 167; 229; 156; 168; 233; 187; 145; 230; 154; 151; 232; 163; 161; 239; 188; 140; 233; 187; 145; 230; 154; 151; 229; 141; 187; 228; 184; 141; 230; 142; 165; 229; 143; 151; 229; 133; 137; 227; 128; 130; 0]) 205;
  do t85 <- unicodeLength8 (At [229; 164; 170; 229; 136; 157; 230; 156; 137; 233; 129; 147; 239; 188; 140; 233; 129; 147; 232; 136; 135; 231; 165; 158; 229; 144; 140; 229; 156; 168; 239; 188; 140; 233; 129; 147; 229; 176; 177; 230; 152; 175; 231; 165; 158; 227; 128; 130; 10; 233; 128; 153; 233; 129; 147; 229; 164; 170; 229; 136; 157; 232; 136; 135; 231; 165; 158; 229; 144; 140; 229; 156; 168; 227; 128; 130; 10; 232; 144; 172; 231; 137; 169; 230; 152; 175; 232; 151; 137; 232; 145; 151; 228; 187; 150; 233; 128; 160; 231; 154; 132; 239; 188; 155; 229; 135; 161; 232; 162; 171; 233; 128; 160; 231; 154; 132; 239; 188; 140; 230; 178; 146; 230; 156; 137; 228; 184; 128; 230; 168; 163; 228; 184; 141; 230; 152; 175; 232; 151; 137; 232; 145; 151; 228; 187; 150; 233; 128; 160; 231; 154; 132; 227; 128; 130; 10; 231; 148; 159; 229; 145; 189; 229; 156; 168; 228; 187; 150; 232; 163; 161; 233; 160; 173; 239; 188; 140; 233; 128; 153; 231; 148; 159; 229; 145; 189; 229; 176; 177; 230; 152; 175; 228; 186; 186; 231; 154; 132; 229; 133; 137; 227; 128; 130; 10; 229; 133; 137; 231; 133; 167; 229; 156; 168; 233; 187; 145; 230; 154; 151; 232; 163; 161; 239; 188; 140; 233; 187; 145; 230; 154; 151; 229; 141; 187; 228; 184; 141; 230; 142; 165; 229; 143; 151; 229; 133; 137; 227; 128; 130; 0]) 204;
  do t86 <- unicodeLength8 (At [229; 164; 170; 229; 136; 157; 230; 156; 137; 233; 129; 147; 239; 188; 140; 233; 129; 147; 232; 136; 135; 231; 165; 158; 229; 144; 140; 229; 156; 168; 239; 188; 140; 233; 129; 147; 229; 176; 177; 230; 152; 175; 231; 165; 158; 227; 128; 130; 10; 233; 128; 153; 233; 129; 147; 229; 164; 170; 229; 136; 157; 232; 136; 135; 231; 165; 158; 229; 144; 140; 229; 156; 168; 227; 128; 130; 10; 232; 144; 172; 231; 137; 169; 230; 152; 175; 232; 151; 137; 232; 145; 151; 228; 187; 150; 233; 128; 160; 231; 154; 132; 239; 188; 155; 229; 135; 161; 232; 162; 171; 233; 128; 160; 231; 154; 132; 239; 188; 140; 230; 178; 146; 230; 156; 137; 228; 184; 128; 230; 168; 163; 228; 184; 141; 230; 152; 175; 232; 151; 137; 232; 145; 151; 228; 187; 150; 233; 128; 160; 231; 154; 132; 227; 128; 130; 10; 231; 148; 159; 229; 145; 189; 229; 156; 168; 228; 187; 150; 232; 163; 161; 233; 160; 173; 239; 188; 140; 233; 128; 153; 231; 148; 159; 229; 145; 189; 229; 176; 177; 230; 152; 175; 228; 186; 186; 231; 154; 132; 229; 133; 137; 227; 128; 130; 10; 229; 133; 137; 231; 133; 167; 229; 156; 168; 233; 187; 145; 230; 154; 151; 232; 163; 161; 239; 188; 140; 233; 187; 145; 230; 154; 151; 229; 141; 187; 228; 184; 141; 230; 142; 165; 229; 143; 151; 229; 133; 137; 227; 128; 130; 0]) 203;
  do t87 <- unicodeLength8 (At [229; 164; 170; 229; 136; 157; 230; 156; 137; 233; 129; 147; 239; 188; 140; 233; 129; 147; 232; 136; 135; 231; 165; 158; 229; 144; 140; 229; 156; 168; 239; 188; 140; 233; 129; 147; 229; 176; 177; 230; 152; 175; 231; 165; 158; 227; 128; 130; 10; 233; 128; 153; 233; 129; 147; 229; 164; 170; 229; 136; 157; 232; 136; 135; 231; 165; 158; 229; 144; 140; 229; 156; 168; 227; 128; 130; 10; 232; 144; 172; 231; 137; 169; 230; 152; 175; 232; 151; 137; 232; 145; 151; 228; 187; 150; 233; 128; 160; 231; 154; 132; 239; 188; 155; 229; 135; 161; 232; 162; 171; 233; 128; 160; 231; 154; 132; 239; 188; 140; 230; 178; 146; 230; 156; 137; 228; 184; 128; 230; 168; 163; 228; 184; 141; 230; 152; 175; 232; 151; 137; 232; 145; 151; 228; 187; 150; 233; 128; 160; 231; 154; 132; 227; 128; 130; 10; 231; 148; 159; 229; 145; 189; 229; 156; 168; 228; 187; 150; 232; 163; 161; 233; 160; 173; 239; 188; 140; 233; 128; 153; 231; 148; 159; 229; 145; 189; 229; 176; 177; 230; 152; 175; 228; 186; 186; 231; 154; 132; 229; 133; 137; 227; 128; 130; 10; 229; 133; 137; 231; 133; 167; 229; 156; 168; 233; 187; 145; 230; 154; 151; 232; 163; 161; 239; 188; 140; 233; 187; 145; 230; 154; 151; 229; 141; 187; 228; 184; 141; 230; 142; 165; 229; 143; 151; 229; 133; 137; 227; 128; 130; 0]) 202;
  do t88 <- unicodeLength8 (At [229; 164; 170; 229; 136; 157; 230; 156; 137; 233; 129; 147; 239; 188; 140; 233; 129; 147; 232; 136; 135; 231; 165; 158; 229; 144; 140; 229; 156; 168; 239; 188; 140; 233; 129; 147; 229; 176; 177; 230; 152; 175; 231; 165; 158; 227; 128; 130; 10; 233; 128; 153; 233; 129; 147; 229; 164; 170; 229; 136; 157; 232; 136; 135; 231; 165; 158; 229; 144; 140; 229; 156; 168; 227; 128; 130; 10; 232; 144; 172; 231; 137; 169; 230; 152; 175; 232; 151; 137; 232; 145; 151; 228; 187; 150; 233; 128; 160; 231; 154; 132; 239; 188; 155; 229; 135; 161; 232; 162; 171; 233; 128; 160; 231; 154; 132; 239; 188; 140; 230; 178; 146; 230; 156; 137; 228; 184; 128; 230; 168; 163; 228; 184; 141; 230; 152; 175; 232; 151; 137; 232; 145; 151; 228; 187; 150; 233; 128; 160; 231; 154; 132; 227; 128; 130; 10; 231; 148; 159; 229; 145; 189; 229; 156; 168; 228; 187; 150; 232; 163; 161; 233; 160; 173; 239; 188; 140; 233; 128; 153; 231; 148; 159; 229; 145; 189; 229; 176; 177; 230; 152; 175; 228; 186; 186; 231; 154; 132; 229; 133; 137; 227; 128; 130; 10; 229; 133; 137; 231; 133; 167; 229; 156; 168; 233; 187; 145; 230; 154; 151; 232; 163; 161; 239; 188; 140; 233; 187; 145; 230; 154; 151; 229; 141; 187; 228; 184; 141; 230; 142; 165; 229; 143; 151; 229; 133; 137; 227; 128; 130; 0]) 201;
  do t89 <- unicodeLength8 (At [229; 164; 170; 229; 136; 157; 230; 156; 137; 233; 129; 147; 239; 188; 140; 233; 129; 147; 232; 136; 135; 231; 165; 158; 229; 144; 140; 229; 156; 168; 239; 188; 140; 233; 129; 147; 229; 176; 177; 230; 152; 175; 231; 165; 158; 227; 128; 130; 10; 233; 128; 153; 233; 129; 147; 229; 164; 170; 229; 136; 157; 232; 136; 135; 231; 165; 158; 229; 144; 140; 229; 156; 168; 227; 128; 130; 10; 232; 144; 172; 231; 137; 169; 230; 152; 175; 232; 151; 137; 232; 145; 151; 228; 187; 150; 233; 128; 160; 231; 154; 132; 239; 188; 155; 229; 135; 161; 232; 162; 171; 233; 128; 160; 231; 154; 132; 239; 188; 140; 230; 178; 146; 230; 156; 137; 228; 184; 128; 230; 168; 163; 228; 184; 141; 230; 152; 175; 232; 151; 137; 232; 145; 151; 228; 187; 150; 233; 128; 160; 231; 154; 132; 227; 128; 130; 10; 231; 148; 159; 229; 145; 189; 229; 156; 168; 228; 187; 150; 232; 163; 161; 233; 160; 173; 239; 188; 140; 233; 128; 153; 231; 148; 159; 229; 145; 189; 229; 176; 177; 230; 152; 175; 228; 186; 186; 231; 154; 132; 229; 133; 137; 227; 128; 130; 10; 229; 133; 137; 231; 133; 167; 229; 156; 168; 233; 187; 145; 230; 154; 151; 232; 163; 161; 239; 188; 140; 233; 187; 145; 230; 154; 151; 229; 141; 187; 228; 184; 141; 230; 142; 165; 229; 143; 151; 229; 133; 137; 227; 128; 130; 0]) 200;
  do t90 <- unicodeLength8 (At [101; 115; 99; 97; 112; 101; 58; 32; 237; 160; 128; 237; 176; 176; 0]) 0;
  do t91 <- unicodeLength8 (At [101; 115; 99; 97; 112; 101; 58; 32; 237; 160; 128; 237; 176; 176; 0]) 15;
  do t92 <- unicodeLength8 (At [101; 115; 99; 97; 112; 101; 58; 32; 237; 160; 128; 237; 176; 176; 0]) 14;
  do t93 <- unicodeLength8 (At [101; 115; 99; 97; 112; 101; 58; 32; 237; 160; 128; 237; 176; 176; 0]) 13;
  do t94 <- unicodeLength8 (At [101; 115; 99; 97; 112; 101; 58; 32; 237; 160; 128; 237; 176; 176; 0]) 12;
  do t95 <- unicodeLength8 (At [101; 115; 99; 97; 112; 101; 58; 32; 237; 160; 128; 237; 176; 176; 0]) 11;
  do t96 <- unicodeLength8 (At [101; 115; 99; 97; 112; 101; 58; 32; 237; 160; 128; 237; 176; 176; 0]) 10;
  do t97 <- unicodeLength8 (At [101; 115; 99; 97; 112; 101; 58; 32; 237; 160; 128; 237; 176; 176; 0]) 9;
  do t98 <- unicodeLength8 (At [101; 115; 99; 97; 112; 101; 58; 32; 237; 160; 128; 237; 176; 176; 0]) 8;
  do t99 <- unicodeLength8 (At [101; 115; 99; 97; 112; 101; 58; 32; 237; 160; 128; 237; 176; 176; 0]) 7;
  do t100 <- unicodeLength8 (At [101; 115; 99; 97; 112; 101; 58; 32; 237; 160; 128; 237; 176; 176; 0]) 6;
  do t101 <- unicodeLength8 (At [101; 115; 99; 97; 112; 101; 58; 32; 237; 160; 128; 237; 176; 176; 0]) 5;
  do t102 <- unicodeLength8 (At [101; 115; 99; 97; 112; 101; 58; 32; 237; 160; 128; 237; 176; 176; 0]) 4;
  do t103 <- unicodeLength8 (At [101; 115; 99; 97; 112; 101; 58; 32; 237; 160; 128; 237; 176; 176; 0]) 3;
  do t104 <- unicodeLength8 (At [101; 115; 99; 97; 112; 101; 58; 32; 237; 160; 128; 237; 176; 176; 0]) 2;
  do t105 <- unicodeLength8 (At [101; 115; 99; 97; 112; 101; 58; 32; 237; 160; 128; 237; 176; 176; 0]) 1;
  do t106 <- unicodeLength8 (At [101; 115; 99; 97; 112; 101; 58; 32; 237; 176; 176; 0]) 0;
  do t107 <- unicodeLength8 (At [101; 115; 99; 97; 112; 101; 58; 32; 237; 176; 176; 0]) 11;
  do t108 <- unicodeLength8 (At [101; 115; 99; 97; 112; 101; 58; 32; 237; 176; 176; 0]) 10;
  do t109 <- unicodeLength8 (At [101; 115; 99; 97; 112; 101; 58; 32; 237; 176; 176; 0]) 9;
  do t110 <- unicodeLength8 (At [101; 115; 99; 97; 112; 101; 58; 32; 237; 176; 176; 0]) 8;
  do t111 <- unicodeLength8 (At [101; 115; 99; 97; 112; 101; 58; 32; 237; 176; 176; 0]) 7;
  do t112 <- unicodeLength8 (At [101; 115; 99; 97; 112; 101; 58; 32; 237; 176; 176; 0]) 6;
  do t113 <- unicodeLength8 (At [101; 115; 99; 97; 112; 101; 58; 32; 237; 176; 176; 0]) 5;
  do t114 <- unicodeLength8 (At [101; 115; 99; 97; 112; 101; 58; 32; 237; 176; 176; 0]) 4;
  do t115 <- unicodeLength8 (At [101; 115; 99; 97; 112; 101; 58; 32; 237; 176; 176; 0]) 3;
  do t116 <- unicodeLength8 (At [101; 115; 99; 97; 112; 101; 58; 32; 237; 176; 176; 0]) 2;
  do t117 <- unicodeLength8 (At [101; 115; 99; 97; 112; 101; 58; 32; 237; 176; 176; 0]) 1;
  do t118 <- unicodeLength8 (At [196; 189; 0]) 0;
  do t119 <- unicodeLength8 (At [232; 175; 184; 0]) 0;
  do t120 <- unicodeLength8 (At [240; 144; 128; 128; 240; 160; 128; 128; 0]) 0;
  do t121 <- unicodeLength8 (At [241; 128; 128; 128; 242; 128; 128; 128; 0]) 0;
  do t122 <- unicodeLength8 (At [244; 128; 128; 128; 244; 136; 128; 128; 244; 140; 128; 128; 244; 142; 128; 128; 244; 143; 128; 128; 244; 143; 160; 128; 244; 143; 176; 128; 244; 143; 184; 128; 244; 143; 188; 128; 244; 143; 190; 128; 244; 143; 191; 128; 244; 143; 191; 160; 244; 143; 191; 176; 244; 143; 191; 184; 244; 143; 191; 188; 244; 143; 191; 190; 244; 143; 191; 191; 244; 144; 128; 128; 0]) 68;
  do t123 <- unicodeLength8 (At [244; 128; 128; 128; 244; 136; 128; 128; 244; 140; 128; 128; 244; 142; 128; 128; 244; 143; 128; 128; 244; 143; 160; 128; 244; 143; 176; 128; 244; 143; 184; 128; 244; 143; 188; 128; 244; 143; 190; 128; 244; 143; 191; 128; 244; 143; 191; 160; 244; 143; 191; 176; 244; 143; 191; 184; 244; 143; 191; 188; 244; 143; 191; 190; 244; 143; 191; 191; 244; 144; 128; 128; 0]) 72;
  Done [(65 =? t1);
        (60 =? t2);
        (0 =? t3);
        (65 =? t5);
        (0 =? t6);
        (0 =? t7);
        (28 =? t8);
        (28 =? t9);
        (0 =? t10);
        (27 =? t11);
        (26 =? t12);
        (25 =? t13);
        (24 =? t14);
        (23 =? t15);
        (23 =? t16);
        (22 =? t17);
        (21 =? t18);
        (20 =? t19);
        (22 =? t20);
        (34 =? t21);
        (34 =? t22);
        (0 =? t23);
        (33 =? t24);
        (33 =? t25);
        (32 =? t26);
        (32 =? t27);
        (31 =? t28);
        (31 =? t29);
        (30 =? t30);
        (30 =? t31);
        (29 =? t32);
        (28 =? t33);
        (28 =? t34);
        (27 =? t35);
        (86 =? t36);
        (0 =? t37);
        (86 =? t38);
        (86 =? t39);
        (85 =? t40);
        (85 =? t41);
        (85 =? t42);
        (84 =? t43);
        (84 =? t44);
        (84 =? t45);
        (83 =? t46);
        (83 =? t47);
        (83 =? t48);
        (82 =? t49);
        (82 =? t50);
        (82 =? t51);
        (81 =? t52);
        (81 =? t53);
        (81 =? t54);
        (80 =? t55);
        (80 =? t56);
        (80 =? t57);
        (79 =? t58);
        (79 =? t59);
        (79 =? t60);
        (78 =? t61);
        (78 =? t62);
        (78 =? t63);
        (77 =? t64);
        (77 =? t65);
        (77 =? t66);
        (76 =? t67);
        (76 =? t68);
        (76 =? t69);
        (75 =? t70);
        (75 =? t71);
        (75 =? t72);
        (74 =? t73);
        (74 =? t74);
        (74 =? t75);
        (73 =? t76);
        (73 =? t77);
        (73 =? t78);
        (72 =? t79);
        (72 =? t80);
        (72 =? t81);
        (71 =? t82);
        (71 =? t83);
        (71 =? t84);
        (70 =? t85);
        (69 =? t86);
        (69 =? t87);
        (69 =? t88);
        (68 =? t89);
        (9 =? t90);
        (0 =? t91);
        (9 =? t92);
        (8 =? t93);
        (8 =? t94);
        (8 =? t95);
        (8 =? t96);
        (8 =? t97);
        (8 =? t98);
        (7 =? t99);
        (6 =? t100);
        (5 =? t101);
        (4 =? t102);
        (3 =? t103);
        (2 =? t104);
        (1 =? t105);
        (0 =? t106);
        (0 =? t107);
        (0 =? t108);
        (8 =? t109);
        (8 =? t110);
        (7 =? t111);
        (6 =? t112);
        (5 =? t113);
        (4 =? t114);
        (3 =? t115);
        (2 =? t116);
        (1 =? t117);
        (1 =? t118);
        (1 =? t119);
        (2 =? t120);
        (2 =? t121);
        (17 =? t122);
        (0 =? t123)].
Example run_testUnicodeLengthUtf8_passes : all_true (run_testUnicodeLengthUtf8 (tables V16)) = true.
Proof. vm_cast_no_check (eq_refl true). Qed.

(* testUnicodeLengthUtf16, 28 checks *)
Definition run_testUnicodeLengthUtf16 (T : UnicodeTables) : outcome (list bool) :=
  do t1 <- unicodeLength16 (At [78; 111; 119; 32; 105; 115; 32; 116; 104; 101; 32; 116; 105; 109; 101; 32; 102; 111; 114; 32; 97; 108; 108; 32; 103; 111; 111; 100; 32; 109; 101; 110; 32; 116; 111; 32; 99; 111; 109; 101; 32; 116; 111; 32; 116; 104; 101; 32; 97; 105; 100; 32; 111; 102; 32; 116; 104; 101; 32; 112; 97; 114; 116; 121; 46; 0]) 0;
  do t2 <- unicodeLength16 (At [78; 111; 119; 32; 105; 115; 32; 116; 104; 101; 32; 116; 105; 109; 101; 32; 102; 111; 114; 32; 97; 108; 108; 32; 103; 111; 111; 100; 32; 109; 101; 110; 32; 116; 111; 32; 99; 111; 109; 101; 32; 116; 111; 32; 116; 104; 101; 32; 97; 105; 100; 32; 111; 102; 32; 116; 104; 101; 32; 112; 97; 114; 116; 121; 46; 0]) 65;
  do t3 <- unicodeLength16 (At [78; 111; 119; 32; 105; 115; 32; 116; 104; 101; 32; 116; 105; 109; 101; 32; 102; 111; 114; 32; 97; 108; 108; 32; 103; 111; 111; 100; 32; 109; 101; 110; 32; 116; 111; 32; 99; 111; 109; 101; 32; 116; 111; 32; 116; 104; 101; 32; 97; 105; 100; 32; 111; 102; 32; 116; 104; 101; 32; 112; 97; 114; 116; 121; 46; 0]) 60;
  do t4 <- unicodeLength16 (At [78; 111; 119; 32; 105; 115; 32; 116; 104; 101; 32; 116; 105; 109; 101; 32; 102; 111; 114; 32; 97; 108; 108; 32; 103; 111; 111; 100; 32; 109; 101; 110; 32; 116; 111; 32; 99; 111; 109; 101; 32; 116; 111; 32; 116; 104; 101; 32; 97; 105; 100; 32; 111; 102; 32; 116; 104; 101; 32; 112; 97; 114; 116; 121; 46; 0]) 66;
  do t5 <- unicodeLength16 (At [78; 111; 119; 32; 105; 115; 32; 116; 104; 101; 32; 116; 105; 109; 101; 32; 102; 111; 114; 32; 97; 108; 108; 32; 103; 111; 111; 100; 32; 109; 101; 110; 32; 116; 111; 32; 99; 111; 109; 101; 32; 116; 111; 32; 116; 104; 101; 32; 97; 105; 100; 32; 111; 102; 32; 116; 104; 101; 55296; 32; 112; 97; 114; 116; 121; 46; 0]) 0;
  do t6 <- unicodeLength16 (At [78; 111; 119; 32; 105; 115; 32; 116; 104; 101; 32; 116; 105; 109; 101; 32; 102; 111; 114; 32; 97; 108; 108; 32; 103; 111; 111; 100; 32; 109; 101; 110; 32; 116; 111; 32; 99; 111; 109; 101; 32; 116; 111; 32; 116; 104; 101; 32; 97; 105; 100; 32; 111; 102; 32; 116; 104; 101; 55296; 32; 112; 97; 114; 116; 121; 46; 0]) 66;
  do t7 <- unicodeLength16 (At [78; 111; 119; 32; 105; 115; 32; 116; 104; 101; 32; 116; 105; 109; 101; 32; 102; 111; 114; 32; 97; 108; 108; 32; 103; 111; 111; 100; 32; 109; 101; 110; 32; 116; 111; 32; 99; 111; 109; 101; 32; 116; 111; 32; 116; 104; 101; 32; 97; 105; 100; 32; 111; 102; 32; 116; 104; 101; 55296; 32; 112; 97; 114; 116; 121; 46; 0]) 65;
  do t8 <- unicodeLength16 (At [78; 111; 119; 32; 105; 115; 32; 116; 104; 101; 32; 116; 105; 109; 101; 32; 102; 111; 114; 32; 97; 108; 108; 32; 103; 111; 111; 100; 32; 109; 101; 110; 32; 116; 111; 32; 99; 111; 109; 101; 32; 116; 111; 32; 116; 104; 101; 32; 97; 105; 100; 32; 111; 102; 32; 116; 104; 101; 55296; 32; 112; 97; 114; 116; 121; 46; 0]) 64;
  do t9 <- unicodeLength16 (At [78; 111; 119; 32; 105; 115; 32; 116; 104; 101; 32; 116; 105; 109; 101; 32; 102; 111; 114; 32; 97; 108; 108; 32; 103; 111; 111; 100; 32; 109; 101; 110; 32; 116; 111; 32; 99; 111; 109; 101; 32; 116; 111; 32; 116; 104; 101; 32; 97; 105; 100; 32; 111; 102; 32; 116; 104; 101; 55296; 32; 112; 97; 114; 116; 121; 46; 0]) 63;
  do t10 <- unicodeLength16 (At [78; 111; 119; 32; 105; 115; 32; 116; 104; 101; 32; 116; 105; 109; 101; 32; 102; 111; 114; 32; 97; 108; 108; 32; 103; 111; 111; 100; 32; 109; 101; 110; 32; 116; 111; 32; 99; 111; 109; 101; 32; 116; 111; 32; 116; 104; 101; 32; 97; 105; 100; 32; 111; 102; 32; 116; 104; 101; 55296; 32; 112; 97; 114; 116; 121; 46; 0]) 62;
  do t11 <- unicodeLength16 (At [78; 111; 119; 32; 105; 115; 32; 116; 104; 101; 32; 116; 105; 109; 101; 32; 102; 111; 114; 32; 97; 108; 108; 32; 103; 111; 111; 100; 32; 109; 101; 110; 32; 116; 111; 32; 99; 111; 109; 101; 32; 116; 111; 32; 116; 104; 101; 32; 97; 105; 100; 32; 111; 102; 32; 116; 104; 101; 55296; 32; 112; 97; 114; 116; 121; 46; 0]) 61;
  do t12 <- unicodeLength16 (At [78; 111; 119; 32; 105; 115; 32; 116; 104; 101; 32; 116; 105; 109; 101; 32; 102; 111; 114; 32; 97; 108; 108; 32; 103; 111; 111; 100; 32; 109; 101; 110; 32; 116; 111; 32; 99; 111; 109; 101; 32; 116; 111; 32; 116; 104; 101; 32; 97; 105; 100; 32; 111; 102; 32; 116; 104; 101; 55296; 32; 112; 97; 114; 116; 121; 46; 0]) 60;
  do t13 <- unicodeLength16 (At [78; 111; 119; 32; 105; 115; 32; 116; 104; 101; 32; 116; 105; 109; 101; 32; 102; 111; 114; 32; 97; 108; 108; 32; 103; 111; 111; 100; 32; 109; 101; 110; 32; 116; 111; 32; 99; 111; 109; 101; 32; 116; 111; 32; 116; 104; 101; 32; 97; 105; 100; 32; 111; 102; 32; 116; 104; 101; 55296; 32; 112; 97; 114; 116; 121; 46; 0]) 59;
  do t14 <- unicodeLength16 (At [78; 111; 119; 32; 105; 115; 32; 116; 104; 101; 32; 116; 105; 109; 101; 32; 102; 111; 114; 32; 97; 108; 108; 32; 103; 111; 111; 100; 32; 109; 101; 110; 32; 116; 111; 32; 99; 111; 109; 101; 32; 116; 111; 32; 116; 104; 101; 32; 97; 105; 100; 32; 111; 102; 32; 116; 104; 101; 55296; 32; 112; 97; 114; 116; 121; 46; 0]) 58;
  do t15 <- unicodeLength16 (At [78; 111; 119; 32; 105; 115; 32; 116; 104; 101; 32; 116; 105; 109; 101; 32; 102; 111; 114; 32; 97; 108; 108; 32; 103; 111; 111; 100; 32; 109; 101; 110; 32; 116; 111; 32; 99; 111; 109; 101; 32; 116; 111; 32; 116; 104; 101; 32; 97; 105; 100; 32; 111; 102; 32; 116; 104; 101; 55296; 32; 112; 97; 114; 116; 121; 46; 0]) 57;
  do t16 <- unicodeLength16 (At [78; 111; 119; 32; 105; 115; 32; 116; 104; 101; 32; 116; 105; 109; 101; 32; 102; 111; 114; 32; 97; 108; 108; 32; 103; 111; 111; 100; 32; 109; 101; 110; 32; 116; 55296; 57003; 46; 0]) 0;
  do t17 <- unicodeLength16 (At [78; 111; 119; 32; 105; 115; 32; 116; 104; 101; 32; 116; 105; 109; 101; 32; 102; 111; 114; 32; 97; 108; 108; 32; 103; 111; 111; 100; 32; 109; 101; 110; 32; 116; 55296; 57003; 46; 0]) 37;
  do t18 <- unicodeLength16 (At [78; 111; 119; 32; 105; 115; 32; 116; 104; 101; 32; 116; 105; 109; 101; 32; 102; 111; 114; 32; 97; 108; 108; 32; 103; 111; 111; 100; 32; 109; 101; 110; 32; 116; 55296; 57003; 46; 0]) 36;
  do t19 <- unicodeLength16 (At [78; 111; 119; 32; 105; 115; 32; 116; 104; 101; 32; 116; 105; 109; 101; 32; 102; 111; 114; 32; 97; 108; 108; 32; 103; 111; 111; 100; 32; 109; 101; 110; 32; 116; 55296; 57003; 46; 0]) 35;
  do t20 <- unicodeLength16 (At [78; 111; 119; 32; 105; 115; 32; 116; 104; 101; 32; 116; 105; 109; 101; 32; 102; 111; 114; 32; 97; 108; 108; 32; 103; 111; 111; 100; 32; 109; 101; 110; 32; 116; 55296; 57003; 46; 0]) 34;
  do t21 <- unicodeLength16 (At [78; 111; 119; 32; 105; 115; 32; 116; 104; 101; 32; 116; 105; 109; 101; 32; 102; 111; 114; 32; 97; 108; 108; 32; 103; 111; 111; 100; 32; 109; 101; 110; 32; 116; 55296; 57003; 46; 0]) 33;
  do t22 <- unicodeLength16 (At [78; 111; 119; 32; 105; 115; 32; 116; 104; 101; 32; 116; 105; 109; 101; 32; 102; 111; 114; 32; 97; 108; 108; 32; 103; 111; 111; 100; 32; 109; 101; 110; 32; 116; 55296; 57003; 46; 0]) 32;
  do t23 <- unicodeLength16 (At [78; 111; 119; 32; 105; 115; 32; 116; 104; 101; 32; 116; 105; 109; 101; 32; 102; 111; 114; 32; 97; 108; 108; 32; 103; 111; 111; 100; 32; 109; 101; 110; 32; 116; 55296; 57003; 46; 0]) 31;
  do t24 <- unicodeLength16 (At [78; 111; 119; 32; 105; 115; 32; 116; 104; 101; 32; 116; 105; 109; 101; 32; 102; 111; 114; 32; 97; 108; 108; 32; 103; 111; 111; 100; 32; 109; 101; 110; 32; 116; 55296; 57003; 46; 0]) 30;
  do t25 <- unicodeLength16 (At [78; 111; 119; 32; 105; 115; 32; 116; 104; 101; 32; 116; 105; 109; 101; 32; 102; 111; 114; 32; 97; 108; 108; 32; 103; 111; 111; 100; 32; 109; 101; 110; 32; 116; 55296; 57003; 0; 0]) 0;
  do t26 <- unicodeLength16 (At [78; 111; 119; 32; 105; 115; 32; 116; 104; 101; 32; 116; 105; 109; 101; 32; 102; 111; 114; 32; 97; 108; 108; 32; 103; 111; 111; 100; 32; 109; 101; 110; 32; 116; 55296; 0; 0; 0]) 0;
  do t27 <- unicodeLength16 (At [78; 111; 119; 32; 105; 115; 32; 116; 104; 101; 32; 116; 105; 109; 101; 32; 102; 111; 114; 32; 97; 108; 108; 32; 103; 111; 111; 100; 32; 109; 101; 110; 32; 116; 57003; 0; 0; 0]) 0;
  dos t28 <- basic_string (At [78; 111; 119; 32; 105; 115; 32; 116; 104; 101; 32; 116; 105; 109; 101; 32; 102; 111; 114; 32; 97; 108; 108; 32; 103; 111; 111; 100; 32; 109; 101; 110; 32; 116; 111; 32; 99; 111; 109; 101; 32; 116; 111; 32; 116; 104; 101; 32; 97; 105; 100; 32; 111; 102; 32; 116; 104; 101; 32; 112; 97; 114; 116; 121; 46; 0]);
  do t29 <- unicodeLength16 (c_str t28) 0;
  Done [(65 =? t1);
        (65 =? t2);
        (60 =? t3);
        (0 =? t4);
        (0 =? t5);
        (0 =? t6);
        (0 =? t7);
        (0 =? t8);
        (0 =? t9);
        (0 =? t10);
        (0 =? t11);
        (0 =? t12);
        (58 =? t13);
        (58 =? t14);
        (57 =? t15);
        (36 =? t16);
        (36 =? t17);
        (35 =? t18);
        (34 =? t19);
        (34 =? t20);
        (33 =? t21);
        (32 =? t22);
        (31 =? t23);
        (30 =? t24);
        (35 =? t25);
        (33 =? t26);
        (0 =? t27);
        (65 =? t29)].
Example run_testUnicodeLengthUtf16_passes : all_true (run_testUnicodeLengthUtf16 (tables V16)) = true.
Proof. vm_cast_no_check (eq_refl true). Qed.

(* testUnicodeLengthUcs4, 27 checks *)
Definition run_testUnicodeLengthUcs4 (T : UnicodeTables) : outcome (list bool) :=
  do t1 <- unicodeLength32 (At [78; 111; 119; 32; 105; 115; 32; 116; 104; 101; 32; 116; 105; 109; 101; 32; 102; 111; 114; 32; 97; 108; 108; 32; 103; 111; 111; 100; 32; 109; 101; 110; 32; 116; 111; 32; 99; 111; 109; 101; 32; 116; 111; 32; 116; 104; 101; 32; 97; 105; 100; 32; 111; 102; 32; 116; 104; 101; 32; 112; 97; 114; 116; 121; 46; 0]) 0;
  do t2 <- unicodeLength32 (At [78; 111; 119; 32; 105; 115; 32; 116; 104; 101; 32; 116; 105; 109; 101; 32; 102; 111; 114; 32; 97; 108; 108; 32; 103; 111; 111; 100; 32; 109; 101; 110; 32; 116; 111; 32; 99; 111; 109; 101; 32; 116; 111; 32; 116; 104; 101; 32; 97; 105; 100; 32; 111; 102; 32; 116; 104; 101; 32; 112; 97; 114; 116; 121; 46; 0]) 65;
  do t3 <- unicodeLength32 (At [78; 111; 119; 32; 105; 115; 32; 116; 104; 101; 32; 116; 105; 109; 101; 32; 102; 111; 114; 32; 97; 108; 108; 32; 103; 111; 111; 100; 32; 109; 101; 110; 32; 116; 111; 32; 99; 111; 109; 101; 32; 116; 111; 32; 116; 104; 101; 32; 97; 105; 100; 32; 111; 102; 32; 116; 104; 101; 32; 112; 97; 114; 116; 121; 46; 0]) 60;
  do t4 <- unicodeLength32 (At [78; 111; 119; 32; 105; 115; 32; 116; 104; 101; 32; 116; 105; 109; 101; 32; 102; 111; 114; 32; 97; 108; 108; 32; 103; 111; 111; 100; 32; 109; 101; 110; 32; 116; 111; 32; 99; 111; 109; 101; 32; 116; 111; 32; 116; 104; 101; 32; 97; 105; 100; 32; 111; 102; 32; 116; 104; 101; 32; 112; 97; 114; 116; 121; 46; 0]) 66;
  do t5 <- unicodeLength32 (At [78; 111; 119; 32; 105; 115; 32; 116; 104; 101; 32; 116; 105; 109; 101; 32; 102; 111; 114; 32; 97; 108; 108; 32; 103; 111; 111; 100; 32; 109; 101; 110; 32; 116; 111; 32; 99; 111; 109; 101; 32; 116; 111; 32; 116; 104; 101; 32; 97; 105; 100; 32; 111; 102; 32; 116; 104; 101; 55296; 32; 112; 97; 114; 116; 121; 46; 0]) 0;
  do t6 <- unicodeLength32 (At [78; 111; 119; 32; 105; 115; 32; 116; 104; 101; 32; 116; 105; 109; 101; 32; 102; 111; 114; 32; 97; 108; 108; 32; 103; 111; 111; 100; 32; 109; 101; 110; 32; 116; 111; 32; 99; 111; 109; 101; 32; 116; 111; 32; 116; 104; 101; 32; 97; 105; 100; 32; 111; 102; 32; 116; 104; 101; 56320; 32; 112; 97; 114; 116; 121; 46; 0]) 0;
  do t7 <- unicodeLength32 (At [78; 111; 119; 32; 105; 115; 32; 116; 104; 101; 32; 116; 105; 109; 101; 32; 102; 111; 114; 32; 97; 108; 108; 32; 103; 111; 111; 100; 32; 109; 101; 110; 32; 116; 111; 32; 99; 111; 109; 101; 32; 116; 111; 32; 116; 104; 101; 32; 97; 105; 100; 32; 111; 102; 32; 116; 104; 101; 55296; 32; 112; 97; 114; 116; 121; 46; 0]) 66;
  do t8 <- unicodeLength32 (At [78; 111; 119; 32; 105; 115; 32; 116; 104; 101; 32; 116; 105; 109; 101; 32; 102; 111; 114; 32; 97; 108; 108; 32; 103; 111; 111; 100; 32; 109; 101; 110; 32; 116; 111; 32; 99; 111; 109; 101; 32; 116; 111; 32; 116; 104; 101; 32; 97; 105; 100; 32; 111; 102; 32; 116; 104; 101; 56320; 32; 112; 97; 114; 116; 121; 46; 0]) 66;
  do t9 <- unicodeLength32 (At [78; 111; 119; 32; 105; 115; 32; 116; 104; 101; 32; 116; 105; 109; 101; 32; 102; 111; 114; 32; 97; 108; 108; 32; 103; 111; 111; 100; 32; 109; 101; 110; 32; 116; 111; 32; 99; 111; 109; 101; 32; 116; 111; 32; 116; 104; 101; 32; 97; 105; 100; 32; 111; 102; 32; 116; 104; 101; 55296; 32; 112; 97; 114; 116; 121; 46; 0]) 65;
  do t10 <- unicodeLength32 (At [78; 111; 119; 32; 105; 115; 32; 116; 104; 101; 32; 116; 105; 109; 101; 32; 102; 111; 114; 32; 97; 108; 108; 32; 103; 111; 111; 100; 32; 109; 101; 110; 32; 116; 111; 32; 99; 111; 109; 101; 32; 116; 111; 32; 116; 104; 101; 32; 97; 105; 100; 32; 111; 102; 32; 116; 104; 101; 56320; 32; 112; 97; 114; 116; 121; 46; 0]) 65;
  do t11 <- unicodeLength32 (At [78; 111; 119; 32; 105; 115; 32; 116; 104; 101; 32; 116; 105; 109; 101; 32; 102; 111; 114; 32; 97; 108; 108; 32; 103; 111; 111; 100; 32; 109; 101; 110; 32; 116; 111; 32; 99; 111; 109; 101; 32; 116; 111; 32; 116; 104; 101; 32; 97; 105; 100; 32; 111; 102; 32; 116; 104; 101; 55296; 32; 112; 97; 114; 116; 121; 46; 0]) 64;
  do t12 <- unicodeLength32 (At [78; 111; 119; 32; 105; 115; 32; 116; 104; 101; 32; 116; 105; 109; 101; 32; 102; 111; 114; 32; 97; 108; 108; 32; 103; 111; 111; 100; 32; 109; 101; 110; 32; 116; 111; 32; 99; 111; 109; 101; 32; 116; 111; 32; 116; 104; 101; 32; 97; 105; 100; 32; 111; 102; 32; 116; 104; 101; 56320; 32; 112; 97; 114; 116; 121; 46; 0]) 64;
  do t13 <- unicodeLength32 (At [78; 111; 119; 32; 105; 115; 32; 116; 104; 101; 32; 116; 105; 109; 101; 32; 102; 111; 114; 32; 97; 108; 108; 32; 103; 111; 111; 100; 32; 109; 101; 110; 32; 116; 111; 32; 99; 111; 109; 101; 32; 116; 111; 32; 116; 104; 101; 32; 97; 105; 100; 32; 111; 102; 32; 116; 104; 101; 55296; 32; 112; 97; 114; 116; 121; 46; 0]) 63;
  do t14 <- unicodeLength32 (At [78; 111; 119; 32; 105; 115; 32; 116; 104; 101; 32; 116; 105; 109; 101; 32; 102; 111; 114; 32; 97; 108; 108; 32; 103; 111; 111; 100; 32; 109; 101; 110; 32; 116; 111; 32; 99; 111; 109; 101; 32; 116; 111; 32; 116; 104; 101; 32; 97; 105; 100; 32; 111; 102; 32; 116; 104; 101; 56320; 32; 112; 97; 114; 116; 121; 46; 0]) 63;
  do t15 <- unicodeLength32 (At [78; 111; 119; 32; 105; 115; 32; 116; 104; 101; 32; 116; 105; 109; 101; 32; 102; 111; 114; 32; 97; 108; 108; 32; 103; 111; 111; 100; 32; 109; 101; 110; 32; 116; 111; 32; 99; 111; 109; 101; 32; 116; 111; 32; 116; 104; 101; 32; 97; 105; 100; 32; 111; 102; 32; 116; 104; 101; 55296; 32; 112; 97; 114; 116; 121; 46; 0]) 62;
  do t16 <- unicodeLength32 (At [78; 111; 119; 32; 105; 115; 32; 116; 104; 101; 32; 116; 105; 109; 101; 32; 102; 111; 114; 32; 97; 108; 108; 32; 103; 111; 111; 100; 32; 109; 101; 110; 32; 116; 111; 32; 99; 111; 109; 101; 32; 116; 111; 32; 116; 104; 101; 32; 97; 105; 100; 32; 111; 102; 32; 116; 104; 101; 56320; 32; 112; 97; 114; 116; 121; 46; 0]) 62;
  do t17 <- unicodeLength32 (At [78; 111; 119; 32; 105; 115; 32; 116; 104; 101; 32; 116; 105; 109; 101; 32; 102; 111; 114; 32; 97; 108; 108; 32; 103; 111; 111; 100; 32; 109; 101; 110; 32; 116; 111; 32; 99; 111; 109; 101; 32; 116; 111; 32; 116; 104; 101; 32; 97; 105; 100; 32; 111; 102; 32; 116; 104; 101; 55296; 32; 112; 97; 114; 116; 121; 46; 0]) 61;
  do t18 <- unicodeLength32 (At [78; 111; 119; 32; 105; 115; 32; 116; 104; 101; 32; 116; 105; 109; 101; 32; 102; 111; 114; 32; 97; 108; 108; 32; 103; 111; 111; 100; 32; 109; 101; 110; 32; 116; 111; 32; 99; 111; 109; 101; 32; 116; 111; 32; 116; 104; 101; 32; 97; 105; 100; 32; 111; 102; 32; 116; 104; 101; 56320; 32; 112; 97; 114; 116; 121; 46; 0]) 61;
  do t19 <- unicodeLength32 (At [78; 111; 119; 32; 105; 115; 32; 116; 104; 101; 32; 116; 105; 109; 101; 32; 102; 111; 114; 32; 97; 108; 108; 32; 103; 111; 111; 100; 32; 109; 101; 110; 32; 116; 111; 32; 99; 111; 109; 101; 32; 116; 111; 32; 116; 104; 101; 32; 97; 105; 100; 32; 111; 102; 32; 116; 104; 101; 55296; 32; 112; 97; 114; 116; 121; 46; 0]) 60;
  do t20 <- unicodeLength32 (At [78; 111; 119; 32; 105; 115; 32; 116; 104; 101; 32; 116; 105; 109; 101; 32; 102; 111; 114; 32; 97; 108; 108; 32; 103; 111; 111; 100; 32; 109; 101; 110; 32; 116; 111; 32; 99; 111; 109; 101; 32; 116; 111; 32; 116; 104; 101; 32; 97; 105; 100; 32; 111; 102; 32; 116; 104; 101; 56320; 32; 112; 97; 114; 116; 121; 46; 0]) 60;
  do t21 <- unicodeLength32 (At [78; 111; 119; 32; 105; 115; 32; 116; 104; 101; 32; 116; 105; 109; 101; 32; 102; 111; 114; 32; 97; 108; 108; 32; 103; 111; 111; 100; 32; 109; 101; 110; 32; 116; 111; 32; 99; 111; 109; 101; 32; 116; 111; 32; 116; 104; 101; 32; 97; 105; 100; 32; 111; 102; 32; 116; 104; 101; 55296; 32; 112; 97; 114; 116; 121; 46; 0]) 59;
  do t22 <- unicodeLength32 (At [78; 111; 119; 32; 105; 115; 32; 116; 104; 101; 32; 116; 105; 109; 101; 32; 102; 111; 114; 32; 97; 108; 108; 32; 103; 111; 111; 100; 32; 109; 101; 110; 32; 116; 111; 32; 99; 111; 109; 101; 32; 116; 111; 32; 116; 104; 101; 32; 97; 105; 100; 32; 111; 102; 32; 116; 104; 101; 56320; 32; 112; 97; 114; 116; 121; 46; 0]) 59;
  do t23 <- unicodeLength32 (At [78; 111; 119; 32; 105; 115; 32; 116; 104; 101; 32; 116; 105; 109; 101; 32; 102; 111; 114; 32; 97; 108; 108; 32; 103; 111; 111; 100; 32; 109; 101; 110; 32; 116; 111; 32; 99; 111; 109; 101; 32; 116; 111; 32; 116; 104; 101; 32; 97; 105; 100; 32; 111; 102; 32; 116; 104; 101; 55296; 32; 112; 97; 114; 116; 121; 46; 0]) 58;
  do t24 <- unicodeLength32 (At [78; 111; 119; 32; 105; 115; 32; 116; 104; 101; 32; 116; 105; 109; 101; 32; 102; 111; 114; 32; 97; 108; 108; 32; 103; 111; 111; 100; 32; 109; 101; 110; 32; 116; 111; 32; 99; 111; 109; 101; 32; 116; 111; 32; 116; 104; 101; 32; 97; 105; 100; 32; 111; 102; 32; 116; 104; 101; 56320; 32; 112; 97; 114; 116; 121; 46; 0]) 58;
  do t25 <- unicodeLength32 (At [78; 111; 119; 32; 105; 115; 32; 116; 104; 101; 32; 116; 105; 109; 101; 32; 102; 111; 114; 32; 97; 108; 108; 32; 103; 111; 111; 100; 32; 109; 101; 110; 32; 116; 111; 32; 99; 111; 109; 101; 32; 116; 111; 32; 116; 104; 101; 32; 97; 105; 100; 32; 111; 102; 32; 116; 104; 101; 55296; 32; 112; 97; 114; 116; 121; 46; 0]) 57;
  do t26 <- unicodeLength32 (At [78; 111; 119; 32; 105; 115; 32; 116; 104; 101; 32; 116; 105; 109; 101; 32; 102; 111; 114; 32; 97; 108; 108; 32; 103; 111; 111; 100; 32; 109; 101; 110; 32; 116; 111; 32; 99; 111; 109; 101; 32; 116; 111; 32; 116; 104; 101; 32; 97; 105; 100; 32; 111; 102; 32; 116; 104; 101; 56320; 32; 112; 97; 114; 116; 121; 46; 0]) 57;
  dos t27 <- basic_string (At [78; 111; 119; 32; 105; 115; 32; 116; 104; 101; 32; 116; 105; 109; 101; 32; 102; 111; 114; 32; 97; 108; 108; 32; 103; 111; 111; 100; 32; 109; 101; 110; 32; 116; 111; 32; 99; 111; 109; 101; 32; 116; 111; 32; 116; 104; 101; 32; 97; 105; 100; 32; 111; 102; 32; 116; 104; 101; 32; 112; 97; 114; 116; 121; 46; 0]);
  do t28 <- unicodeLength32 (c_str t27) 0;
  Done [(65 =? t1);
        (65 =? t2);
        (60 =? t3);
        (0 =? t4);
        (0 =? t5);
        (0 =? t6);
        (0 =? t7);
        (0 =? t8);
        (0 =? t9);
        (0 =? t10);
        (0 =? t11);
        (0 =? t12);
        (0 =? t13);
        (0 =? t14);
        (0 =? t15);
        (0 =? t16);
        (0 =? t17);
        (0 =? t18);
        (0 =? t19);
        (0 =? t20);
        (0 =? t21);
        (0 =? t22);
        (58 =? t23);
        (58 =? t24);
        (57 =? t25);
        (57 =? t26);
        (65 =? t28)].
Example run_testUnicodeLengthUcs4_passes : all_true (run_testUnicodeLengthUcs4 (tables V16)) = true.
Proof. vm_cast_no_check (eq_refl true). Qed.

(* testConvertFromCP1252, 13 checks *)
Definition run_testConvertFromCP1252 (T : UnicodeTables) : outcome (list bool) :=
  do t1 <- toUtf8_cp (At [128; 130; 131; 132; 133; 134; 135; 136; 137; 138; 139; 140; 142; 0]) kSrcCP1252;
  do t2 <- toUtf8_cp (At [145; 146; 147; 148; 149; 150; 151; 152; 153; 154; 155; 156; 158; 159; 0]) kSrcCP1252;
  do t3 <- toUtf8_cp (At [160; 161; 162; 163; 164; 165; 166; 167; 168; 169; 170; 171; 172; 173; 174; 175; 0]) kSrcCP1252;
  do t4 <- toUtf8_cp (At [176; 177; 178; 179; 180; 181; 182; 183; 184; 185; 186; 187; 188; 189; 190; 191; 0]) kSrcCP1252;
  do t5 <- toUtf8_cp (At [192; 193; 194; 195; 196; 197; 198; 199; 200; 201; 202; 203; 204; 205; 206; 207; 0]) kSrcCP1252;
  do t6 <- toUtf8_cp (At [208; 209; 210; 211; 212; 213; 214; 215; 216; 217; 218; 219; 220; 221; 222; 223; 0]) kSrcCP1252;
  do t7 <- toUtf8_cp (At [224; 225; 226; 227; 228; 229; 230; 231; 232; 233; 234; 235; 236; 237; 238; 239; 0]) kSrcCP1252;
  do t8 <- toUtf8_cp (At [240; 241; 242; 243; 244; 245; 246; 247; 248; 249; 250; 251; 252; 253; 254; 255; 0]) kSrcCP1252;
  do t9 <- toUtf8_cp (At [129; 141; 143; 144; 157; 0]) kSrcCP1252;
  do t10 <- toUtf8_cp (At [141; 143; 144; 157; 0]) kSrcCP1252;
  do t11 <- toUtf8_cp (At [143; 144; 157; 0]) kSrcCP1252;
  do t12 <- toUtf8_cp (At [144; 157; 0]) kSrcCP1252;
  do t13 <- toUtf8_cp (At [157; 0]) kSrcCP1252;
  Done [(0 =? (if list_eqb (upto0 (t1 ++ [0])) (upto0 [226; 130; 172; 226; 128; 154; 198; 146; 226; 128; 158; 226; 128; 166; 226; 128; 160; 226; 128; 161; 203; 134; 226; 128; 176; 197; 160; 226; 128; 185; 197; 146; 197; 189; 0]) then 0 else 1));
        (0 =? (if list_eqb (upto0 (t2 ++ [0])) (upto0 [226; 128; 152; 226; 128; 153; 226; 128; 156; 226; 128; 157; 226; 128; 162; 226; 128; 147; 226; 128; 148; 203; 156; 226; 132; 162; 197; 161; 226; 128; 186; 197; 147; 197; 190; 197; 184; 0]) then 0 else 1));
        (0 =? (if list_eqb (upto0 (t3 ++ [0])) (upto0 [194; 160; 194; 161; 194; 162; 194; 163; 194; 164; 194; 165; 194; 166; 194; 167; 194; 168; 194; 169; 194; 170; 194; 171; 194; 172; 194; 173; 194; 174; 194; 175; 0]) then 0 else 1));
        (0 =? (if list_eqb (upto0 (t4 ++ [0])) (upto0 [194; 176; 194; 177; 194; 178; 194; 179; 194; 180; 194; 181; 194; 182; 194; 183; 194; 184; 194; 185; 194; 186; 194; 187; 194; 188; 194; 189; 194; 190; 194; 191; 0]) then 0 else 1));
        (0 =? (if list_eqb (upto0 (t5 ++ [0])) (upto0 [195; 128; 195; 129; 195; 130; 195; 131; 195; 132; 195; 133; 195; 134; 195; 135; 195; 136; 195; 137; 195; 138; 195; 139; 195; 140; 195; 141; 195; 142; 195; 143; 0]) then 0 else 1));
        (0 =? (if list_eqb (upto0 (t6 ++ [0])) (upto0 [195; 144; 195; 145; 195; 146; 195; 147; 195; 148; 195; 149; 195; 150; 195; 151; 195; 152; 195; 153; 195; 154; 195; 155; 195; 156; 195; 157; 195; 158; 195; 159; 0]) then 0 else 1));
        (0 =? (if list_eqb (upto0 (t7 ++ [0])) (upto0 [195; 160; 195; 161; 195; 162; 195; 163; 195; 164; 195; 165; 195; 166; 195; 167; 195; 168; 195; 169; 195; 170; 195; 171; 195; 172; 195; 173; 195; 174; 195; 175; 0]) then 0 else 1));
        (0 =? (if list_eqb (upto0 (t8 ++ [0])) (upto0 [195; 176; 195; 177; 195; 178; 195; 179; 195; 180; 195; 181; 195; 182; 195; 183; 195; 184; 195; 185; 195; 186; 195; 187; 195; 188; 195; 189; 195; 190; 195; 191; 0]) then 0 else 1));
        (match t9 with [] => true | _ => false end);
        (match t10 with [] => true | _ => false end);
        (match t11 with [] => true | _ => false end);
        (match t12 with [] => true | _ => false end);
        (match t13 with [] => true | _ => false end)].
Example run_testConvertFromCP1252_passes : all_true (run_testConvertFromCP1252 (tables V16)) = true.
Proof. vm_cast_no_check (eq_refl true). Qed.

(* testConvertFromCP1250, 13 checks *)
Definition run_testConvertFromCP1250 (T : UnicodeTables) : outcome (list bool) :=
  do t1 <- toUtf8_cp (At [128; 130; 132; 133; 134; 135; 137; 138; 139; 140; 141; 142; 143; 0]) kSrcCP1250;
  do t2 <- toUtf8_cp (At [145; 146; 147; 148; 149; 150; 151; 153; 154; 155; 156; 157; 158; 159; 0]) kSrcCP1250;
  do t3 <- toUtf8_cp (At [160; 161; 162; 163; 164; 165; 166; 167; 168; 169; 170; 171; 172; 173; 174; 175; 0]) kSrcCP1250;
  do t4 <- toUtf8_cp (At [176; 177; 178; 179; 180; 181; 182; 183; 184; 185; 186; 187; 188; 189; 190; 191; 0]) kSrcCP1250;
  do t5 <- toUtf8_cp (At [192; 193; 194; 195; 196; 197; 198; 199; 200; 201; 202; 203; 204; 205; 206; 207; 0]) kSrcCP1250;
  do t6 <- toUtf8_cp (At [208; 209; 210; 211; 212; 213; 214; 215; 216; 217; 218; 219; 220; 221; 222; 223; 0]) kSrcCP1250;
  do t7 <- toUtf8_cp (At [224; 225; 226; 227; 228; 229; 230; 231; 232; 233; 234; 235; 236; 237; 238; 239; 0]) kSrcCP1250;
  do t8 <- toUtf8_cp (At [240; 241; 242; 243; 244; 245; 246; 247; 248; 249; 250; 251; 252; 253; 254; 255; 0]) kSrcCP1250;
  do t9 <- toUtf8_cp (At [129; 131; 136; 144; 152; 0]) kSrcCP1250;
  do t10 <- toUtf8_cp (At [131; 136; 144; 152; 0]) kSrcCP1250;
  do t11 <- toUtf8_cp (At [136; 144; 152; 0]) kSrcCP1250;
  do t12 <- toUtf8_cp (At [144; 152; 0]) kSrcCP1250;
  do t13 <- toUtf8_cp (At [152; 0]) kSrcCP1250;
  Done [(0 =? (if list_eqb (upto0 (t1 ++ [0])) (upto0 [226; 130; 172; 226; 128; 154; 226; 128; 158; 226; 128; 166; 226; 128; 160; 226; 128; 161; 226; 128; 176; 197; 160; 226; 128; 185; 197; 154; 197; 164; 197; 189; 197; 185; 0]) then 0 else 1));
        (0 =? (if list_eqb (upto0 (t2 ++ [0])) (upto0 [226; 128; 152; 226; 128; 153; 226; 128; 156; 226; 128; 157; 226; 128; 162; 226; 128; 147; 226; 128; 148; 226; 132; 162; 197; 161; 226; 128; 186; 197; 155; 197; 165; 197; 190; 197; 186; 0]) then 0 else 1));
        (0 =? (if list_eqb (upto0 (t3 ++ [0])) (upto0 [194; 160; 203; 135; 203; 152; 197; 129; 194; 164; 196; 132; 194; 166; 194; 167; 194; 168; 194; 169; 197; 158; 194; 171; 194; 172; 194; 173; 194; 174; 197; 187; 0]) then 0 else 1));
        (0 =? (if list_eqb (upto0 (t4 ++ [0])) (upto0 [194; 176; 194; 177; 203; 155; 197; 130; 194; 180; 194; 181; 194; 182; 194; 183; 194; 184; 196; 133; 197; 159; 194; 187; 196; 189; 203; 157; 196; 190; 197; 188; 0]) then 0 else 1));
        (0 =? (if list_eqb (upto0 (t5 ++ [0])) (upto0 [197; 148; 195; 129; 195; 130; 196; 130; 195; 132; 196; 185; 196; 134; 195; 135; 196; 140; 195; 137; 196; 152; 195; 139; 196; 154; 195; 141; 195; 142; 196; 142; 0]) then 0 else 1));
        (0 =? (if list_eqb (upto0 (t6 ++ [0])) (upto0 [196; 144; 197; 131; 197; 135; 195; 147; 195; 148; 197; 144; 195; 150; 195; 151; 197; 152; 197; 174; 195; 154; 197; 176; 195; 156; 195; 157; 197; 162; 195; 159; 0]) then 0 else 1));
        (0 =? (if list_eqb (upto0 (t7 ++ [0])) (upto0 [197; 149; 195; 161; 195; 162; 196; 131; 195; 164; 196; 186; 196; 135; 195; 167; 196; 141; 195; 169; 196; 153; 195; 171; 196; 155; 195; 173; 195; 174; 196; 143; 0]) then 0 else 1));
        (0 =? (if list_eqb (upto0 (t8 ++ [0])) (upto0 [196; 145; 197; 132; 197; 136; 195; 179; 195; 180; 197; 145; 195; 182; 195; 183; 197; 153; 197; 175; 195; 186; 197; 177; 195; 188; 195; 189; 197; 163; 203; 153; 0]) then 0 else 1));
        (match t9 with [] => true | _ => false end);
        (match t10 with [] => true | _ => false end);
        (match t11 with [] => true | _ => false end);
        (match t12 with [] => true | _ => false end);
        (match t13 with [] => true | _ => false end)].
Example run_testConvertFromCP1250_passes : all_true (run_testConvertFromCP1250 (tables V16)) = true.
Proof. vm_cast_no_check (eq_refl true). Qed.
