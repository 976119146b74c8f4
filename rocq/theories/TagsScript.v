(** Generated by tools/gen_tags.py from src/layout/script.rs:116-267.  Do not edit.

    The enumeration [Script], its tags and names, in source order. *)

From Verif Require Export Bytes.
From Coq Require Import String.
Local Open Scope byte_scope.

(** [Script], src/layout/script.rs:116-267: one constructor per row, and [Other]. *)
Inductive Script :=
| ScriptAdlam
| ScriptAhom
| ScriptAnatolianHieroglyphs
| ScriptArabic
| ScriptArmenian
| ScriptAvestan
| ScriptBalinese
| ScriptBamum
| ScriptBassaVah
| ScriptBatak
| ScriptBengali
| ScriptBengaliV2
| ScriptBhaiksuki
| ScriptBopomofo
| ScriptBrahmi
| ScriptBraille
| ScriptBuginese
| ScriptBuhid
| ScriptByzantineMusic
| ScriptCanadianSyllabics
| ScriptCarian
| ScriptCaucasianAlbanian
| ScriptChakma
| ScriptCham
| ScriptCherokee
| ScriptCJKIdeographic
| ScriptCoptic
| ScriptCypriotSyllabary
| ScriptCyrillic
| ScriptDefault
| ScriptDeseret
| ScriptDevanagari
| ScriptDevanagariV2
| ScriptDuployan
| ScriptEgyptianHieroglyphs
| ScriptElbasan
| ScriptEthiopic
| ScriptGeorgian
| ScriptGlagolitic
| ScriptGothic
| ScriptGrantha
| ScriptGreek
| ScriptGujarati
| ScriptGujaratiV2
| ScriptGurmukhi
| ScriptGurmukhiV2
| ScriptHangul
| ScriptHangulJamo
| ScriptHanunoo
| ScriptHatran
| ScriptHebrew
| ScriptHiragana
| ScriptImperialAramaic
| ScriptInscriptionalPahlavi
| ScriptInscriptionalParthian
| ScriptJavanese
| ScriptKaithi
| ScriptKannada
| ScriptKannadaV2
| ScriptKatakana
| ScriptKayahLi
| ScriptKharosthi
| ScriptKhmer
| ScriptKhojki
| ScriptKhudawadi
| ScriptLao
| ScriptLatin
| ScriptLepcha
| ScriptLimbu
| ScriptLinearA
| ScriptLinearB
| ScriptLisu
| ScriptLycian
| ScriptLydian
| ScriptMahajani
| ScriptMalayalam
| ScriptMalayalamV2
| ScriptMandaic
| ScriptManichaean
| ScriptMarchen
| ScriptMathematicalAlphanumericSymbols
| ScriptMeiteiMayek
| ScriptMendeKikakui
| ScriptMeroiticCursive
| ScriptMeroiticHieroglyphs
| ScriptMiao
| ScriptModi
| ScriptMongolian
| ScriptMro
| ScriptMultani
| ScriptMusicalSymbols
| ScriptMyanmar
| ScriptMyanmarV2
| ScriptNabataean
| ScriptNewa
| ScriptNewTaiLue
| ScriptNKo
| ScriptOdia
| ScriptOdiaV2
| ScriptOgham
| ScriptOlChiki
| ScriptOldItalic
| ScriptOldHungarian
| ScriptOldNorthArabian
| ScriptOldPermic
| ScriptOldPersianCuneiform
| ScriptOldSouthArabian
| ScriptOldTurkic
| ScriptOsage
| ScriptOsmanya
| ScriptPahawhHmong
| ScriptPalmyrene
| ScriptPauCinHau
| ScriptPhagspa
| ScriptPhoenician
| ScriptPsalterPahlavi
| ScriptRejang
| ScriptRunic
| ScriptSamaritan
| ScriptSaurashtra
| ScriptSharada
| ScriptShavian
| ScriptSiddham
| ScriptSignWriting
| ScriptSinhala
| ScriptSoraSompeng
| ScriptSumeroAkkadianCuneiform
| ScriptSundanese
| ScriptSylotiNagri
| ScriptSyriac
| ScriptTagalog
| ScriptTagbanwa
| ScriptTaiLe
| ScriptTaiTham
| ScriptTaiViet
| ScriptTakri
| ScriptTamil
| ScriptTamilV2
| ScriptTangut
| ScriptTelugu
| ScriptTeluguV2
| ScriptThaana
| ScriptThai
| ScriptTibetan
| ScriptTifinagh
| ScriptTirhuta
| ScriptUgariticCuneiform
| ScriptVai
| ScriptWarangCiti
| ScriptYi
| ScriptOther (tag : tag).

(** The rows: tag and variant. *)
Definition script_rows : list (tag * Script) := [
  ((Tag "a" "d" "l" "m"), ScriptAdlam);
  ((Tag "a" "h" "o" "m"), ScriptAhom);
  ((Tag "h" "l" "u" "w"), ScriptAnatolianHieroglyphs);
  ((Tag "a" "r" "a" "b"), ScriptArabic);
  ((Tag "a" "r" "m" "n"), ScriptArmenian);
  ((Tag "a" "v" "s" "t"), ScriptAvestan);
  ((Tag "b" "a" "l" "i"), ScriptBalinese);
  ((Tag "b" "a" "m" "u"), ScriptBamum);
  ((Tag "b" "a" "s" "s"), ScriptBassaVah);
  ((Tag "b" "a" "t" "k"), ScriptBatak);
  ((Tag "b" "e" "n" "g"), ScriptBengali);
  ((Tag "b" "n" "g" "2"), ScriptBengaliV2);
  ((Tag "b" "h" "k" "s"), ScriptBhaiksuki);
  ((Tag "b" "o" "p" "o"), ScriptBopomofo);
  ((Tag "b" "r" "a" "h"), ScriptBrahmi);
  ((Tag "b" "r" "a" "i"), ScriptBraille);
  ((Tag "b" "u" "g" "i"), ScriptBuginese);
  ((Tag "b" "u" "h" "d"), ScriptBuhid);
  ((Tag "b" "y" "z" "m"), ScriptByzantineMusic);
  ((Tag "c" "a" "n" "s"), ScriptCanadianSyllabics);
  ((Tag "c" "a" "r" "i"), ScriptCarian);
  ((Tag "a" "g" "h" "b"), ScriptCaucasianAlbanian);
  ((Tag "c" "a" "k" "m"), ScriptChakma);
  ((Tag "c" "h" "a" "m"), ScriptCham);
  ((Tag "c" "h" "e" "r"), ScriptCherokee);
  ((Tag "h" "a" "n" "i"), ScriptCJKIdeographic);
  ((Tag "c" "o" "p" "t"), ScriptCoptic);
  ((Tag "c" "p" "r" "t"), ScriptCypriotSyllabary);
  ((Tag "c" "y" "r" "l"), ScriptCyrillic);
  ((Tag "D" "F" "L" "T"), ScriptDefault);
  ((Tag "d" "s" "r" "t"), ScriptDeseret);
  ((Tag "d" "e" "v" "a"), ScriptDevanagari);
  ((Tag "d" "e" "v" "2"), ScriptDevanagariV2);
  ((Tag "d" "u" "p" "l"), ScriptDuployan);
  ((Tag "e" "g" "y" "p"), ScriptEgyptianHieroglyphs);
  ((Tag "e" "l" "b" "a"), ScriptElbasan);
  ((Tag "e" "t" "h" "i"), ScriptEthiopic);
  ((Tag "g" "e" "o" "r"), ScriptGeorgian);
  ((Tag "g" "l" "a" "g"), ScriptGlagolitic);
  ((Tag "g" "o" "t" "h"), ScriptGothic);
  ((Tag "g" "r" "a" "n"), ScriptGrantha);
  ((Tag "g" "r" "e" "k"), ScriptGreek);
  ((Tag "g" "u" "j" "r"), ScriptGujarati);
  ((Tag "g" "j" "r" "2"), ScriptGujaratiV2);
  ((Tag "g" "u" "r" "u"), ScriptGurmukhi);
  ((Tag "g" "u" "r" "2"), ScriptGurmukhiV2);
  ((Tag "h" "a" "n" "g"), ScriptHangul);
  ((Tag "j" "a" "m" "o"), ScriptHangulJamo);
  ((Tag "h" "a" "n" "o"), ScriptHanunoo);
  ((Tag "h" "a" "t" "r"), ScriptHatran);
  ((Tag "h" "e" "b" "r"), ScriptHebrew);
  ((Tag "k" "a" "n" "a"), ScriptHiragana);
  ((Tag "a" "r" "m" "i"), ScriptImperialAramaic);
  ((Tag "p" "h" "l" "i"), ScriptInscriptionalPahlavi);
  ((Tag "p" "r" "t" "i"), ScriptInscriptionalParthian);
  ((Tag "j" "a" "v" "a"), ScriptJavanese);
  ((Tag "k" "t" "h" "i"), ScriptKaithi);
  ((Tag "k" "n" "d" "a"), ScriptKannada);
  ((Tag "k" "n" "d" "2"), ScriptKannadaV2);
  ((Tag "k" "a" "n" "a"), ScriptKatakana);
  ((Tag "k" "a" "l" "i"), ScriptKayahLi);
  ((Tag "k" "h" "a" "r"), ScriptKharosthi);
  ((Tag "k" "h" "m" "r"), ScriptKhmer);
  ((Tag "k" "h" "o" "j"), ScriptKhojki);
  ((Tag "s" "i" "n" "d"), ScriptKhudawadi);
  ((Tag "l" "a" "o" " "), ScriptLao);
  ((Tag "l" "a" "t" "n"), ScriptLatin);
  ((Tag "l" "e" "p" "c"), ScriptLepcha);
  ((Tag "l" "i" "m" "b"), ScriptLimbu);
  ((Tag "l" "i" "n" "a"), ScriptLinearA);
  ((Tag "l" "i" "n" "b"), ScriptLinearB);
  ((Tag "l" "i" "s" "u"), ScriptLisu);
  ((Tag "l" "y" "c" "i"), ScriptLycian);
  ((Tag "l" "y" "d" "i"), ScriptLydian);
  ((Tag "m" "a" "h" "j"), ScriptMahajani);
  ((Tag "m" "l" "y" "m"), ScriptMalayalam);
  ((Tag "m" "l" "m" "2"), ScriptMalayalamV2);
  ((Tag "m" "a" "n" "d"), ScriptMandaic);
  ((Tag "m" "a" "n" "i"), ScriptManichaean);
  ((Tag "m" "a" "r" "c"), ScriptMarchen);
  ((Tag "m" "a" "t" "h"), ScriptMathematicalAlphanumericSymbols);
  ((Tag "m" "t" "e" "i"), ScriptMeiteiMayek);
  ((Tag "m" "e" "n" "d"), ScriptMendeKikakui);
  ((Tag "m" "e" "r" "c"), ScriptMeroiticCursive);
  ((Tag "m" "e" "r" "o"), ScriptMeroiticHieroglyphs);
  ((Tag "p" "l" "r" "d"), ScriptMiao);
  ((Tag "m" "o" "d" "i"), ScriptModi);
  ((Tag "m" "o" "n" "g"), ScriptMongolian);
  ((Tag "m" "r" "o" "o"), ScriptMro);
  ((Tag "m" "u" "l" "t"), ScriptMultani);
  ((Tag "m" "u" "s" "c"), ScriptMusicalSymbols);
  ((Tag "m" "y" "m" "r"), ScriptMyanmar);
  ((Tag "m" "y" "m" "2"), ScriptMyanmarV2);
  ((Tag "n" "b" "a" "t"), ScriptNabataean);
  ((Tag "n" "e" "w" "a"), ScriptNewa);
  ((Tag "t" "a" "l" "u"), ScriptNewTaiLue);
  ((Tag "n" "k" "o" " "), ScriptNKo);
  ((Tag "o" "r" "y" "a"), ScriptOdia);
  ((Tag "o" "r" "y" "2"), ScriptOdiaV2);
  ((Tag "o" "g" "a" "m"), ScriptOgham);
  ((Tag "o" "l" "c" "k"), ScriptOlChiki);
  ((Tag "i" "t" "a" "l"), ScriptOldItalic);
  ((Tag "h" "u" "n" "g"), ScriptOldHungarian);
  ((Tag "n" "a" "r" "b"), ScriptOldNorthArabian);
  ((Tag "p" "e" "r" "m"), ScriptOldPermic);
  ((Tag "x" "p" "e" "o"), ScriptOldPersianCuneiform);
  ((Tag "s" "a" "r" "b"), ScriptOldSouthArabian);
  ((Tag "o" "r" "k" "h"), ScriptOldTurkic);
  ((Tag "o" "s" "g" "e"), ScriptOsage);
  ((Tag "o" "s" "m" "a"), ScriptOsmanya);
  ((Tag "h" "m" "n" "g"), ScriptPahawhHmong);
  ((Tag "p" "a" "l" "m"), ScriptPalmyrene);
  ((Tag "p" "a" "u" "c"), ScriptPauCinHau);
  ((Tag "p" "h" "a" "g"), ScriptPhagspa);
  ((Tag "p" "h" "n" "x"), ScriptPhoenician);
  ((Tag "p" "h" "l" "p"), ScriptPsalterPahlavi);
  ((Tag "r" "j" "n" "g"), ScriptRejang);
  ((Tag "r" "u" "n" "r"), ScriptRunic);
  ((Tag "s" "a" "m" "r"), ScriptSamaritan);
  ((Tag "s" "a" "u" "r"), ScriptSaurashtra);
  ((Tag "s" "h" "r" "d"), ScriptSharada);
  ((Tag "s" "h" "a" "w"), ScriptShavian);
  ((Tag "s" "i" "d" "d"), ScriptSiddham);
  ((Tag "s" "g" "n" "w"), ScriptSignWriting);
  ((Tag "s" "i" "n" "h"), ScriptSinhala);
  ((Tag "s" "o" "r" "a"), ScriptSoraSompeng);
  ((Tag "x" "s" "u" "x"), ScriptSumeroAkkadianCuneiform);
  ((Tag "s" "u" "n" "d"), ScriptSundanese);
  ((Tag "s" "y" "l" "o"), ScriptSylotiNagri);
  ((Tag "s" "y" "r" "c"), ScriptSyriac);
  ((Tag "t" "g" "l" "g"), ScriptTagalog);
  ((Tag "t" "a" "g" "b"), ScriptTagbanwa);
  ((Tag "t" "a" "l" "e"), ScriptTaiLe);
  ((Tag "l" "a" "n" "a"), ScriptTaiTham);
  ((Tag "t" "a" "v" "t"), ScriptTaiViet);
  ((Tag "t" "a" "k" "r"), ScriptTakri);
  ((Tag "t" "a" "m" "l"), ScriptTamil);
  ((Tag "t" "m" "l" "2"), ScriptTamilV2);
  ((Tag "t" "a" "n" "g"), ScriptTangut);
  ((Tag "t" "e" "l" "u"), ScriptTelugu);
  ((Tag "t" "e" "l" "2"), ScriptTeluguV2);
  ((Tag "t" "h" "a" "a"), ScriptThaana);
  ((Tag "t" "h" "a" "i"), ScriptThai);
  ((Tag "t" "i" "b" "t"), ScriptTibetan);
  ((Tag "t" "f" "n" "g"), ScriptTifinagh);
  ((Tag "t" "i" "r" "h"), ScriptTirhuta);
  ((Tag "u" "g" "a" "r"), ScriptUgariticCuneiform);
  ((Tag "v" "a" "i" " "), ScriptVai);
  ((Tag "w" "a" "r" "a"), ScriptWarangCiti);
  ((Tag "y" "i" " " " "), ScriptYi)].

(** [From<Script> for Tag]. *)
Definition script_tag (value : Script) : tag :=
  match value with
  | ScriptAdlam => (Tag "a" "d" "l" "m")
  | ScriptAhom => (Tag "a" "h" "o" "m")
  | ScriptAnatolianHieroglyphs => (Tag "h" "l" "u" "w")
  | ScriptArabic => (Tag "a" "r" "a" "b")
  | ScriptArmenian => (Tag "a" "r" "m" "n")
  | ScriptAvestan => (Tag "a" "v" "s" "t")
  | ScriptBalinese => (Tag "b" "a" "l" "i")
  | ScriptBamum => (Tag "b" "a" "m" "u")
  | ScriptBassaVah => (Tag "b" "a" "s" "s")
  | ScriptBatak => (Tag "b" "a" "t" "k")
  | ScriptBengali => (Tag "b" "e" "n" "g")
  | ScriptBengaliV2 => (Tag "b" "n" "g" "2")
  | ScriptBhaiksuki => (Tag "b" "h" "k" "s")
  | ScriptBopomofo => (Tag "b" "o" "p" "o")
  | ScriptBrahmi => (Tag "b" "r" "a" "h")
  | ScriptBraille => (Tag "b" "r" "a" "i")
  | ScriptBuginese => (Tag "b" "u" "g" "i")
  | ScriptBuhid => (Tag "b" "u" "h" "d")
  | ScriptByzantineMusic => (Tag "b" "y" "z" "m")
  | ScriptCanadianSyllabics => (Tag "c" "a" "n" "s")
  | ScriptCarian => (Tag "c" "a" "r" "i")
  | ScriptCaucasianAlbanian => (Tag "a" "g" "h" "b")
  | ScriptChakma => (Tag "c" "a" "k" "m")
  | ScriptCham => (Tag "c" "h" "a" "m")
  | ScriptCherokee => (Tag "c" "h" "e" "r")
  | ScriptCJKIdeographic => (Tag "h" "a" "n" "i")
  | ScriptCoptic => (Tag "c" "o" "p" "t")
  | ScriptCypriotSyllabary => (Tag "c" "p" "r" "t")
  | ScriptCyrillic => (Tag "c" "y" "r" "l")
  | ScriptDefault => (Tag "D" "F" "L" "T")
  | ScriptDeseret => (Tag "d" "s" "r" "t")
  | ScriptDevanagari => (Tag "d" "e" "v" "a")
  | ScriptDevanagariV2 => (Tag "d" "e" "v" "2")
  | ScriptDuployan => (Tag "d" "u" "p" "l")
  | ScriptEgyptianHieroglyphs => (Tag "e" "g" "y" "p")
  | ScriptElbasan => (Tag "e" "l" "b" "a")
  | ScriptEthiopic => (Tag "e" "t" "h" "i")
  | ScriptGeorgian => (Tag "g" "e" "o" "r")
  | ScriptGlagolitic => (Tag "g" "l" "a" "g")
  | ScriptGothic => (Tag "g" "o" "t" "h")
  | ScriptGrantha => (Tag "g" "r" "a" "n")
  | ScriptGreek => (Tag "g" "r" "e" "k")
  | ScriptGujarati => (Tag "g" "u" "j" "r")
  | ScriptGujaratiV2 => (Tag "g" "j" "r" "2")
  | ScriptGurmukhi => (Tag "g" "u" "r" "u")
  | ScriptGurmukhiV2 => (Tag "g" "u" "r" "2")
  | ScriptHangul => (Tag "h" "a" "n" "g")
  | ScriptHangulJamo => (Tag "j" "a" "m" "o")
  | ScriptHanunoo => (Tag "h" "a" "n" "o")
  | ScriptHatran => (Tag "h" "a" "t" "r")
  | ScriptHebrew => (Tag "h" "e" "b" "r")
  | ScriptHiragana => (Tag "k" "a" "n" "a")
  | ScriptImperialAramaic => (Tag "a" "r" "m" "i")
  | ScriptInscriptionalPahlavi => (Tag "p" "h" "l" "i")
  | ScriptInscriptionalParthian => (Tag "p" "r" "t" "i")
  | ScriptJavanese => (Tag "j" "a" "v" "a")
  | ScriptKaithi => (Tag "k" "t" "h" "i")
  | ScriptKannada => (Tag "k" "n" "d" "a")
  | ScriptKannadaV2 => (Tag "k" "n" "d" "2")
  | ScriptKatakana => (Tag "k" "a" "n" "a")
  | ScriptKayahLi => (Tag "k" "a" "l" "i")
  | ScriptKharosthi => (Tag "k" "h" "a" "r")
  | ScriptKhmer => (Tag "k" "h" "m" "r")
  | ScriptKhojki => (Tag "k" "h" "o" "j")
  | ScriptKhudawadi => (Tag "s" "i" "n" "d")
  | ScriptLao => (Tag "l" "a" "o" " ")
  | ScriptLatin => (Tag "l" "a" "t" "n")
  | ScriptLepcha => (Tag "l" "e" "p" "c")
  | ScriptLimbu => (Tag "l" "i" "m" "b")
  | ScriptLinearA => (Tag "l" "i" "n" "a")
  | ScriptLinearB => (Tag "l" "i" "n" "b")
  | ScriptLisu => (Tag "l" "i" "s" "u")
  | ScriptLycian => (Tag "l" "y" "c" "i")
  | ScriptLydian => (Tag "l" "y" "d" "i")
  | ScriptMahajani => (Tag "m" "a" "h" "j")
  | ScriptMalayalam => (Tag "m" "l" "y" "m")
  | ScriptMalayalamV2 => (Tag "m" "l" "m" "2")
  | ScriptMandaic => (Tag "m" "a" "n" "d")
  | ScriptManichaean => (Tag "m" "a" "n" "i")
  | ScriptMarchen => (Tag "m" "a" "r" "c")
  | ScriptMathematicalAlphanumericSymbols => (Tag "m" "a" "t" "h")
  | ScriptMeiteiMayek => (Tag "m" "t" "e" "i")
  | ScriptMendeKikakui => (Tag "m" "e" "n" "d")
  | ScriptMeroiticCursive => (Tag "m" "e" "r" "c")
  | ScriptMeroiticHieroglyphs => (Tag "m" "e" "r" "o")
  | ScriptMiao => (Tag "p" "l" "r" "d")
  | ScriptModi => (Tag "m" "o" "d" "i")
  | ScriptMongolian => (Tag "m" "o" "n" "g")
  | ScriptMro => (Tag "m" "r" "o" "o")
  | ScriptMultani => (Tag "m" "u" "l" "t")
  | ScriptMusicalSymbols => (Tag "m" "u" "s" "c")
  | ScriptMyanmar => (Tag "m" "y" "m" "r")
  | ScriptMyanmarV2 => (Tag "m" "y" "m" "2")
  | ScriptNabataean => (Tag "n" "b" "a" "t")
  | ScriptNewa => (Tag "n" "e" "w" "a")
  | ScriptNewTaiLue => (Tag "t" "a" "l" "u")
  | ScriptNKo => (Tag "n" "k" "o" " ")
  | ScriptOdia => (Tag "o" "r" "y" "a")
  | ScriptOdiaV2 => (Tag "o" "r" "y" "2")
  | ScriptOgham => (Tag "o" "g" "a" "m")
  | ScriptOlChiki => (Tag "o" "l" "c" "k")
  | ScriptOldItalic => (Tag "i" "t" "a" "l")
  | ScriptOldHungarian => (Tag "h" "u" "n" "g")
  | ScriptOldNorthArabian => (Tag "n" "a" "r" "b")
  | ScriptOldPermic => (Tag "p" "e" "r" "m")
  | ScriptOldPersianCuneiform => (Tag "x" "p" "e" "o")
  | ScriptOldSouthArabian => (Tag "s" "a" "r" "b")
  | ScriptOldTurkic => (Tag "o" "r" "k" "h")
  | ScriptOsage => (Tag "o" "s" "g" "e")
  | ScriptOsmanya => (Tag "o" "s" "m" "a")
  | ScriptPahawhHmong => (Tag "h" "m" "n" "g")
  | ScriptPalmyrene => (Tag "p" "a" "l" "m")
  | ScriptPauCinHau => (Tag "p" "a" "u" "c")
  | ScriptPhagspa => (Tag "p" "h" "a" "g")
  | ScriptPhoenician => (Tag "p" "h" "n" "x")
  | ScriptPsalterPahlavi => (Tag "p" "h" "l" "p")
  | ScriptRejang => (Tag "r" "j" "n" "g")
  | ScriptRunic => (Tag "r" "u" "n" "r")
  | ScriptSamaritan => (Tag "s" "a" "m" "r")
  | ScriptSaurashtra => (Tag "s" "a" "u" "r")
  | ScriptSharada => (Tag "s" "h" "r" "d")
  | ScriptShavian => (Tag "s" "h" "a" "w")
  | ScriptSiddham => (Tag "s" "i" "d" "d")
  | ScriptSignWriting => (Tag "s" "g" "n" "w")
  | ScriptSinhala => (Tag "s" "i" "n" "h")
  | ScriptSoraSompeng => (Tag "s" "o" "r" "a")
  | ScriptSumeroAkkadianCuneiform => (Tag "x" "s" "u" "x")
  | ScriptSundanese => (Tag "s" "u" "n" "d")
  | ScriptSylotiNagri => (Tag "s" "y" "l" "o")
  | ScriptSyriac => (Tag "s" "y" "r" "c")
  | ScriptTagalog => (Tag "t" "g" "l" "g")
  | ScriptTagbanwa => (Tag "t" "a" "g" "b")
  | ScriptTaiLe => (Tag "t" "a" "l" "e")
  | ScriptTaiTham => (Tag "l" "a" "n" "a")
  | ScriptTaiViet => (Tag "t" "a" "v" "t")
  | ScriptTakri => (Tag "t" "a" "k" "r")
  | ScriptTamil => (Tag "t" "a" "m" "l")
  | ScriptTamilV2 => (Tag "t" "m" "l" "2")
  | ScriptTangut => (Tag "t" "a" "n" "g")
  | ScriptTelugu => (Tag "t" "e" "l" "u")
  | ScriptTeluguV2 => (Tag "t" "e" "l" "2")
  | ScriptThaana => (Tag "t" "h" "a" "a")
  | ScriptThai => (Tag "t" "h" "a" "i")
  | ScriptTibetan => (Tag "t" "i" "b" "t")
  | ScriptTifinagh => (Tag "t" "f" "n" "g")
  | ScriptTirhuta => (Tag "t" "i" "r" "h")
  | ScriptUgariticCuneiform => (Tag "u" "g" "a" "r")
  | ScriptVai => (Tag "v" "a" "i" " ")
  | ScriptWarangCiti => (Tag "w" "a" "r" "a")
  | ScriptYi => (Tag "y" "i" " " " ")
  | ScriptOther tag => tag
  end.

(** The position in the declaration, which the derived [Ord] compares first. *)
Definition script_rank (value : Script) : N :=
  match value with
  | ScriptAdlam => 0
  | ScriptAhom => 1
  | ScriptAnatolianHieroglyphs => 2
  | ScriptArabic => 3
  | ScriptArmenian => 4
  | ScriptAvestan => 5
  | ScriptBalinese => 6
  | ScriptBamum => 7
  | ScriptBassaVah => 8
  | ScriptBatak => 9
  | ScriptBengali => 10
  | ScriptBengaliV2 => 11
  | ScriptBhaiksuki => 12
  | ScriptBopomofo => 13
  | ScriptBrahmi => 14
  | ScriptBraille => 15
  | ScriptBuginese => 16
  | ScriptBuhid => 17
  | ScriptByzantineMusic => 18
  | ScriptCanadianSyllabics => 19
  | ScriptCarian => 20
  | ScriptCaucasianAlbanian => 21
  | ScriptChakma => 22
  | ScriptCham => 23
  | ScriptCherokee => 24
  | ScriptCJKIdeographic => 25
  | ScriptCoptic => 26
  | ScriptCypriotSyllabary => 27
  | ScriptCyrillic => 28
  | ScriptDefault => 29
  | ScriptDeseret => 30
  | ScriptDevanagari => 31
  | ScriptDevanagariV2 => 32
  | ScriptDuployan => 33
  | ScriptEgyptianHieroglyphs => 34
  | ScriptElbasan => 35
  | ScriptEthiopic => 36
  | ScriptGeorgian => 37
  | ScriptGlagolitic => 38
  | ScriptGothic => 39
  | ScriptGrantha => 40
  | ScriptGreek => 41
  | ScriptGujarati => 42
  | ScriptGujaratiV2 => 43
  | ScriptGurmukhi => 44
  | ScriptGurmukhiV2 => 45
  | ScriptHangul => 46
  | ScriptHangulJamo => 47
  | ScriptHanunoo => 48
  | ScriptHatran => 49
  | ScriptHebrew => 50
  | ScriptHiragana => 51
  | ScriptImperialAramaic => 52
  | ScriptInscriptionalPahlavi => 53
  | ScriptInscriptionalParthian => 54
  | ScriptJavanese => 55
  | ScriptKaithi => 56
  | ScriptKannada => 57
  | ScriptKannadaV2 => 58
  | ScriptKatakana => 59
  | ScriptKayahLi => 60
  | ScriptKharosthi => 61
  | ScriptKhmer => 62
  | ScriptKhojki => 63
  | ScriptKhudawadi => 64
  | ScriptLao => 65
  | ScriptLatin => 66
  | ScriptLepcha => 67
  | ScriptLimbu => 68
  | ScriptLinearA => 69
  | ScriptLinearB => 70
  | ScriptLisu => 71
  | ScriptLycian => 72
  | ScriptLydian => 73
  | ScriptMahajani => 74
  | ScriptMalayalam => 75
  | ScriptMalayalamV2 => 76
  | ScriptMandaic => 77
  | ScriptManichaean => 78
  | ScriptMarchen => 79
  | ScriptMathematicalAlphanumericSymbols => 80
  | ScriptMeiteiMayek => 81
  | ScriptMendeKikakui => 82
  | ScriptMeroiticCursive => 83
  | ScriptMeroiticHieroglyphs => 84
  | ScriptMiao => 85
  | ScriptModi => 86
  | ScriptMongolian => 87
  | ScriptMro => 88
  | ScriptMultani => 89
  | ScriptMusicalSymbols => 90
  | ScriptMyanmar => 91
  | ScriptMyanmarV2 => 92
  | ScriptNabataean => 93
  | ScriptNewa => 94
  | ScriptNewTaiLue => 95
  | ScriptNKo => 96
  | ScriptOdia => 97
  | ScriptOdiaV2 => 98
  | ScriptOgham => 99
  | ScriptOlChiki => 100
  | ScriptOldItalic => 101
  | ScriptOldHungarian => 102
  | ScriptOldNorthArabian => 103
  | ScriptOldPermic => 104
  | ScriptOldPersianCuneiform => 105
  | ScriptOldSouthArabian => 106
  | ScriptOldTurkic => 107
  | ScriptOsage => 108
  | ScriptOsmanya => 109
  | ScriptPahawhHmong => 110
  | ScriptPalmyrene => 111
  | ScriptPauCinHau => 112
  | ScriptPhagspa => 113
  | ScriptPhoenician => 114
  | ScriptPsalterPahlavi => 115
  | ScriptRejang => 116
  | ScriptRunic => 117
  | ScriptSamaritan => 118
  | ScriptSaurashtra => 119
  | ScriptSharada => 120
  | ScriptShavian => 121
  | ScriptSiddham => 122
  | ScriptSignWriting => 123
  | ScriptSinhala => 124
  | ScriptSoraSompeng => 125
  | ScriptSumeroAkkadianCuneiform => 126
  | ScriptSundanese => 127
  | ScriptSylotiNagri => 128
  | ScriptSyriac => 129
  | ScriptTagalog => 130
  | ScriptTagbanwa => 131
  | ScriptTaiLe => 132
  | ScriptTaiTham => 133
  | ScriptTaiViet => 134
  | ScriptTakri => 135
  | ScriptTamil => 136
  | ScriptTamilV2 => 137
  | ScriptTangut => 138
  | ScriptTelugu => 139
  | ScriptTeluguV2 => 140
  | ScriptThaana => 141
  | ScriptThai => 142
  | ScriptTibetan => 143
  | ScriptTifinagh => 144
  | ScriptTirhuta => 145
  | ScriptUgariticCuneiform => 146
  | ScriptVai => 147
  | ScriptWarangCiti => 148
  | ScriptYi => 149
  | ScriptOther _ => 150
  end%N.

(** [Script::name]. *)
Definition script_name (value : Script) : option string :=
  match value with
  | ScriptAdlam => Some "Adlam"%string
  | ScriptAhom => Some "Ahom"%string
  | ScriptAnatolianHieroglyphs => Some "Anatolian Hieroglyphs"%string
  | ScriptArabic => Some "Arabic"%string
  | ScriptArmenian => Some "Armenian"%string
  | ScriptAvestan => Some "Avestan"%string
  | ScriptBalinese => Some "Balinese"%string
  | ScriptBamum => Some "Bamum"%string
  | ScriptBassaVah => Some "Bassa Vah"%string
  | ScriptBatak => Some "Batak"%string
  | ScriptBengali => Some "Bengali"%string
  | ScriptBengaliV2 => Some "Bengali"%string
  | ScriptBhaiksuki => Some "Bhaiksuki"%string
  | ScriptBopomofo => Some "Bopomofo"%string
  | ScriptBrahmi => Some "Brahmi"%string
  | ScriptBraille => Some "Braille"%string
  | ScriptBuginese => Some "Buginese"%string
  | ScriptBuhid => Some "Buhid"%string
  | ScriptByzantineMusic => Some "Byzantine Music"%string
  | ScriptCanadianSyllabics => Some "Canadian Syllabics"%string
  | ScriptCarian => Some "Carian"%string
  | ScriptCaucasianAlbanian => Some "Caucasian Albanian"%string
  | ScriptChakma => Some "Chakma"%string
  | ScriptCham => Some "Cham"%string
  | ScriptCherokee => Some "Cherokee"%string
  | ScriptCJKIdeographic => Some "CJK Ideographic"%string
  | ScriptCoptic => Some "Coptic"%string
  | ScriptCypriotSyllabary => Some "Cypriot Syllabary"%string
  | ScriptCyrillic => Some "Cyrillic"%string
  | ScriptDefault => Some "Default"%string
  | ScriptDeseret => Some "Deseret"%string
  | ScriptDevanagari => Some "Devanagari"%string
  | ScriptDevanagariV2 => Some "Devanagari"%string
  | ScriptDuployan => Some "Duployan"%string
  | ScriptEgyptianHieroglyphs => Some "Egyptian Hieroglyphs"%string
  | ScriptElbasan => Some "Elbasan"%string
  | ScriptEthiopic => Some "Ethiopic"%string
  | ScriptGeorgian => Some "Georgian"%string
  | ScriptGlagolitic => Some "Glagolitic"%string
  | ScriptGothic => Some "Gothic"%string
  | ScriptGrantha => Some "Grantha"%string
  | ScriptGreek => Some "Greek"%string
  | ScriptGujarati => Some "Gujarati"%string
  | ScriptGujaratiV2 => Some "Gujarati"%string
  | ScriptGurmukhi => Some "Gurmukhi"%string
  | ScriptGurmukhiV2 => Some "Gurmukhi"%string
  | ScriptHangul => Some "Hangul"%string
  | ScriptHangulJamo => Some "Hangul Jamo"%string
  | ScriptHanunoo => Some "Hanunoo"%string
  | ScriptHatran => Some "Hatran"%string
  | ScriptHebrew => Some "Hebrew"%string
  | ScriptHiragana => Some "Hiragana"%string
  | ScriptImperialAramaic => Some "Imperial Aramaic"%string
  | ScriptInscriptionalPahlavi => Some "Inscriptional Pahlavi"%string
  | ScriptInscriptionalParthian => Some "Inscriptional Parthian"%string
  | ScriptJavanese => Some "Javanese"%string
  | ScriptKaithi => Some "Kaithi"%string
  | ScriptKannada => Some "Kannada"%string
  | ScriptKannadaV2 => Some "Kannada"%string
  | ScriptKatakana => Some "Katakana"%string
  | ScriptKayahLi => Some "Kayah Li"%string
  | ScriptKharosthi => Some "Kharosthi"%string
  | ScriptKhmer => Some "Khmer"%string
  | ScriptKhojki => Some "Khojki"%string
  | ScriptKhudawadi => Some "Khudawadi"%string
  | ScriptLao => Some "Lao"%string
  | ScriptLatin => Some "Latin"%string
  | ScriptLepcha => Some "Lepcha"%string
  | ScriptLimbu => Some "Limbu"%string
  | ScriptLinearA => Some "Linear A"%string
  | ScriptLinearB => Some "Linear B"%string
  | ScriptLisu => Some "Lisu (Fraser)"%string
  | ScriptLycian => Some "Lycian"%string
  | ScriptLydian => Some "Lydian"%string
  | ScriptMahajani => Some "Mahajani"%string
  | ScriptMalayalam => Some "Malayalam"%string
  | ScriptMalayalamV2 => Some "Malayalam"%string
  | ScriptMandaic => Some "Mandaic, Mandaean"%string
  | ScriptManichaean => Some "Manichaean"%string
  | ScriptMarchen => Some "Marchen"%string
  | ScriptMathematicalAlphanumericSymbols => Some "Mathematical Alphanumeric Symbols"%string
  | ScriptMeiteiMayek => Some "Meitei Mayek (Meithei, Meetei)"%string
  | ScriptMendeKikakui => Some "Mende Kikakui"%string
  | ScriptMeroiticCursive => Some "Meroitic Cursive"%string
  | ScriptMeroiticHieroglyphs => Some "Meroitic Hieroglyphs"%string
  | ScriptMiao => Some "Miao"%string
  | ScriptModi => Some "Modi"%string
  | ScriptMongolian => Some "Mongolian"%string
  | ScriptMro => Some "Mro"%string
  | ScriptMultani => Some "Multani"%string
  | ScriptMusicalSymbols => Some "Musical Symbols"%string
  | ScriptMyanmar => Some "Myanmar"%string
  | ScriptMyanmarV2 => Some "Myanmar"%string
  | ScriptNabataean => Some "Nabataean"%string
  | ScriptNewa => Some "Newa"%string
  | ScriptNewTaiLue => Some "New Tai Lue"%string
  | ScriptNKo => Some "N’Ko"%string
  | ScriptOdia => Some "Odia"%string
  | ScriptOdiaV2 => Some "Odia"%string
  | ScriptOgham => Some "Ogham"%string
  | ScriptOlChiki => Some "Ol Chiki"%string
  | ScriptOldItalic => Some "Old Italic"%string
  | ScriptOldHungarian => Some "Old Hungarian"%string
  | ScriptOldNorthArabian => Some "Old North Arabian"%string
  | ScriptOldPermic => Some "Old Permic"%string
  | ScriptOldPersianCuneiform => Some "Old Persian Cuneiform"%string
  | ScriptOldSouthArabian => Some "Old South Arabian"%string
  | ScriptOldTurkic => Some "Old Turkic, Orkhon Runic"%string
  | ScriptOsage => Some "Osage"%string
  | ScriptOsmanya => Some "Osmanya"%string
  | ScriptPahawhHmong => Some "Pahawh Hmong"%string
  | ScriptPalmyrene => Some "Palmyrene"%string
  | ScriptPauCinHau => Some "Pau Cin Hau"%string
  | ScriptPhagspa => Some "Phags-pa"%string
  | ScriptPhoenician => Some "Phoenician"%string
  | ScriptPsalterPahlavi => Some "Psalter Pahlavi"%string
  | ScriptRejang => Some "Rejang"%string
  | ScriptRunic => Some "Runic"%string
  | ScriptSamaritan => Some "Samaritan"%string
  | ScriptSaurashtra => Some "Saurashtra"%string
  | ScriptSharada => Some "Sharada"%string
  | ScriptShavian => Some "Shavian"%string
  | ScriptSiddham => Some "Siddham"%string
  | ScriptSignWriting => Some "Sign Writing"%string
  | ScriptSinhala => Some "Sinhala"%string
  | ScriptSoraSompeng => Some "Sora Sompeng"%string
  | ScriptSumeroAkkadianCuneiform => Some "Sumero-Akkadian Cuneiform"%string
  | ScriptSundanese => Some "Sundanese"%string
  | ScriptSylotiNagri => Some "Syloti Nagri"%string
  | ScriptSyriac => Some "Syriac"%string
  | ScriptTagalog => Some "Tagalog"%string
  | ScriptTagbanwa => Some "Tagbanwa"%string
  | ScriptTaiLe => Some "Tai Le"%string
  | ScriptTaiTham => Some "Tai Tham (Lanna)"%string
  | ScriptTaiViet => Some "Tai Viet"%string
  | ScriptTakri => Some "Takri"%string
  | ScriptTamil => Some "Tamil"%string
  | ScriptTamilV2 => Some "Tamil"%string
  | ScriptTangut => Some "Tangut"%string
  | ScriptTelugu => Some "Telugu"%string
  | ScriptTeluguV2 => Some "Telugu"%string
  | ScriptThaana => Some "Thaana"%string
  | ScriptThai => Some "Thai"%string
  | ScriptTibetan => Some "Tibetan"%string
  | ScriptTifinagh => Some "Tifinagh"%string
  | ScriptTirhuta => Some "Tirhuta"%string
  | ScriptUgariticCuneiform => Some "Ugaritic Cuneiform"%string
  | ScriptVai => Some "Vai"%string
  | ScriptWarangCiti => Some "Warang Citi"%string
  | ScriptYi => Some "Yi"%string
  | ScriptOther _ => None
  end.
