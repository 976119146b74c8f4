(** Generated by tools/gen_tags.py from src/layout/language.rs:77-678.  Do not edit.

    The enumeration [Language], its tags and names and codes, in source order. *)

From Verif Require Export Bytes.
From Coq Require Import String.
Local Open Scope byte_scope.

(** [Language], src/layout/language.rs:77-678: one constructor per row, and [Other]. *)
Inductive Language :=
| LanguageAbaza
| LanguageAbkhazian
| LanguageAcholi
| LanguageAchi
| LanguageAdyghe
| LanguageAfrikaans
| LanguageAfar
| LanguageAgaw
| LanguageAiton
| LanguageAkan
| LanguageAlsatian
| LanguageAltai
| LanguageAmharic
| LanguageAngloSaxon
| LanguageAmericanistPhoneticNotation
| LanguageArabic
| LanguageAragonese
| LanguageAari
| LanguageRakhine
| LanguageAssamese
| LanguageAsturian
| LanguageAthapaskan
| LanguageAvar
| LanguageAwadhi
| LanguageAymara
| LanguageTorki
| LanguageAzerbaijani
| LanguageBadaga
| LanguageBanda
| LanguageBaghelkhandi
| LanguageBalkar
| LanguageBalinese
| LanguageBavarian
| LanguageBaule
| LanguageBatakToba
| LanguageBerber
| LanguageBench
| LanguageBibleCree
| LanguageBandjalang
| LanguageBelarussian
| LanguageBemba
| LanguageBengali
| LanguageHaryanvi
| LanguageBagri
| LanguageBulgarian
| LanguageBhili
| LanguageBhojpuri
| LanguageBikol
| LanguageBilen
| LanguageBislama
| LanguageKanauji
| LanguageBlackfoot
| LanguageBaluchi
| LanguagePaoKaren
| LanguageBalante
| LanguageBalti
| LanguageBambara
| LanguageBamileke
| LanguageBosnian
| LanguageBishnupriyaManipuri
| LanguageBreton
| LanguageBrahui
| LanguageBrajBhasha
| LanguageBurmese
| LanguageBodo
| LanguageBashkir
| LanguageBurushaski
| LanguageBeti
| LanguageBatakSimalungun
| LanguageBugis
| LanguageMedumba
| LanguageKaqchikel
| LanguageCatalan
| LanguageZamboangaChavacano
| LanguageCebuano
| LanguageChechen
| LanguageChahaGurage
| LanguageChattisgarhi
| LanguageChichewa
| LanguageChukchi
| LanguageChuukese
| LanguageChoctaw
| LanguageChipewyan
| LanguageCherokee
| LanguageChamorro
| LanguageChuvash
| LanguageCheyenne
| LanguageChiga
| LanguageComorian
| LanguageCoptic
| LanguageCornish
| LanguageCorsican
| LanguageCreoles
| LanguageCree
| LanguageCarrier
| LanguageCrimeanTatar
| LanguageKashubian
| LanguageChurchSlavonic
| LanguageCzech
| LanguageChittagonian
| LanguageSanBlasKuna
| LanguageDanish
| LanguageDargwa
| LanguageDayi
| LanguageWoodsCree
| LanguageDefault
| LanguageGerman
| LanguageDogri
| LanguageDogriMacrolanguage
| LanguageDhangu
| LanguageDivehiDeprecated
| LanguageDimli
| LanguageDivehi
| LanguageZarma
| LanguageDjambarrpuyngu
| LanguageDangme
| LanguageDan
| LanguageDinka
| LanguageDari
| LanguageDhuwal
| LanguageDungan
| LanguageDzongkha
| LanguageEbira
| LanguageEasternCree
| LanguageEdo
| LanguageEfik
| LanguageGreek
| LanguageEasternManinkakan
| LanguageEnglish
| LanguageErzya
| LanguageSpanish
| LanguageCentralYupik
| LanguageEstonian
| LanguageBasque
| LanguageEvenki
| LanguageEven
| LanguageEwe
| LanguageFrenchAntillean
| LanguageFang
| LanguagePersian
| LanguageFanti
| LanguageFinnish
| LanguageFijian
| LanguageDutchFlemish
| LanguageFefe
| LanguageForestNenets
| LanguageFon
| LanguageFaroese
| LanguageFrench
| LanguageCajunFrench
| LanguageFrisian
| LanguageFriulian
| LanguageArpitan
| LanguageFuta
| LanguageFulah
| LanguageNigerianFulfulde
| LanguageGa
| LanguageScottishGaelic
| LanguageGagauz
| LanguageGalician
| LanguageGarshuni
| LanguageGarhwali
| LanguageGeez
| LanguageGithabul
| LanguageGilyak
| LanguageKiribati
| LanguageKpelleGuinea
| LanguageGilaki
| LanguageGumuz
| LanguageGumatj
| LanguageGogo
| LanguageGondi
| LanguageGreenlandic
| LanguageGaro
| LanguageGuarani
| LanguageWayuu
| LanguageGupapuyngu
| LanguageGujarati
| LanguageGusii
| LanguageHaitian
| LanguageHalam
| LanguageHarauti
| LanguageHausa
| LanguageHawaiian
| LanguageHaya
| LanguageHazaragi
| LanguageHammerBanna
| LanguageHerero
| LanguageHiligaynon
| LanguageHindi
| LanguageHighMari
| LanguageHmong
| LanguageHiriMotu
| LanguageHindko
| LanguageHo
| LanguageHarari
| LanguageCroatian
| LanguageHungarian
| LanguageArmenian
| LanguageArmenianEast
| LanguageIban
| LanguageIbibio
| LanguageIgbo
| LanguageIjolanguages
| LanguageIdo
| LanguageInterlingue
| LanguageIlokano
| LanguageInterlingua
| LanguageIndonesian
| LanguageIngush
| LanguageInuktitut
| LanguageInupiat
| LanguageInternationalPhoneticAlphabet
| LanguageIrish
| LanguageIrishTraditional
| LanguageIcelandic
| LanguageInariSami
| LanguageItalian
| LanguageHebrew
| LanguageJamaicanCreole
| LanguageJapanese
| LanguageJavanese
| LanguageLojban
| LanguageKrymchak
| LanguageYiddish
| LanguageLadino
| LanguageJula
| LanguageKabardian
| LanguageKabyle
| LanguageKachchi
| LanguageKalenjin
| LanguageKannada
| LanguageKarachay
| LanguageGeorgian
| LanguageKazakh
| LanguageMakonde
| LanguageKabuverdianu
| LanguageKebena
| LanguageKekchi
| LanguageKhutsuriGeorgian
| LanguageKhakass
| LanguageKhantyKazim
| LanguageKhmer
| LanguageKhantyShurishkar
| LanguageKhamtiShan
| LanguageKhantyVakhi
| LanguageKhowar
| LanguageKikuyu
| LanguageKirghiz
| LanguageKisii
| LanguageKirmanjki
| LanguageSouthernKiwai
| LanguageEasternPwoKaren
| LanguageKokni
| LanguageKalmyk
| LanguageKamba
| LanguageKumaoni
| LanguageKomo
| LanguageKomso
| LanguageKhorasaniTurkic
| LanguageKanuri
| LanguageKodagu
| LanguageKoreanOldHangul
| LanguageKonkani
| LanguageKikongo
| LanguageKomi
| LanguageKongo
| LanguageKomiPermyak
| LanguageKorean
| LanguageKosraean
| LanguageKomiZyrian
| LanguageKpelle
| LanguageKrio
| LanguageKarakalpak
| LanguageKarelian
| LanguageKaraim
| LanguageKaren
| LanguageKoorete
| LanguageKashmiri
| LanguageRipuarian
| LanguageKhasi
| LanguageKildinSami
| LanguageSgawKaren
| LanguageKuanyama
| LanguageKui
| LanguageKulvi
| LanguageKumyk
| LanguageKurdish
| LanguageKurukh
| LanguageKuy
| LanguageKoryak
| LanguageWesternKayah
| LanguageLadin
| LanguageLahuli
| LanguageLak
| LanguageLambani
| LanguageLao
| LanguageLatin
| LanguageLaz
| LanguageLCree
| LanguageLadakhi
| LanguageLezgi
| LanguageLigurian
| LanguageLimburgish
| LanguageLingala
| LanguageLisu
| LanguageLampung
| LanguageLaki
| LanguageLowMari
| LanguageLimbu
| LanguageLombard
| LanguageLomwe
| LanguageLoma
| LanguageLuri
| LanguageLowerSorbian
| LanguageLuleSami
| LanguageLithuanian
| LanguageLuxembourgish
| LanguageLubaLulua
| LanguageLubaKatanga
| LanguageGanda
| LanguageLuyia
| LanguageLuo
| LanguageLatvian
| LanguageMadura
| LanguageMagahi
| LanguageMarshallese
| LanguageMajang
| LanguageMakhuwa
| LanguageMalayalam
| LanguageMam
| LanguageMansi
| LanguageMapudungun
| LanguageMarathi
| LanguageMarwari
| LanguageMbundu
| LanguageMbo
| LanguageManchu
| LanguageMooseCree
| LanguageMende
| LanguageMandar
| LanguageMeen
| LanguageMeru
| LanguageMorisyen
| LanguageMinangkabau
| LanguageMizo
| LanguageMacedonian
| LanguageMakasar
| LanguageKituba
| LanguageMale
| LanguageMalagasy
| LanguageMalinke
| LanguageMalayalamReformed
| LanguageMalay
| LanguageMandinka
| LanguageMongolian
| LanguageManipuri
| LanguageManinka
| LanguageManx
| LanguageMohawk
| LanguageMoksha
| LanguageMoldavian
| LanguageMon
| LanguageMoroccan
| LanguageMossi
| LanguageMaori
| LanguageMaithili
| LanguageMaltese
| LanguageMundari
| LanguageMuscogee
| LanguageMirandese
| LanguageHmongDaw
| LanguageMayan
| LanguageMazanderani
| LanguageNagaAssamese
| LanguageNahuatl
| LanguageNanai
| LanguageNeapolitan
| LanguageNaskapi
| LanguageNauruan
| LanguageNavajo
| LanguageNCree
| LanguageNdebele
| LanguageNdau
| LanguageNdonga
| LanguageLowSaxon
| LanguageNepali
| LanguageNewari
| LanguageNgbaka
| LanguageNagari
| LanguageNorwayHouseCree
| LanguageNisi
| LanguageNiuean
| LanguageNyankole
| LanguageNKo
| LanguageDutch
| LanguageNimadi
| LanguageNogai
| LanguageNorwegian
| LanguageNovial
| LanguageNorthernSami
| LanguageNorthernSotho
| LanguageNorthernTai
| LanguageEsperanto
| LanguageNyamwezi
| LanguageNorwegianNynorsk
| LanguageMbembeTigon
| LanguageOccitan
| LanguageOjiCree
| LanguageOjibway
| LanguageOdia
| LanguageOromo
| LanguageOssetian
| LanguagePalestinianAramaic
| LanguagePangasinan
| LanguagePali
| LanguagePampangan
| LanguagePunjabi
| LanguagePalpa
| LanguagePapiamentu
| LanguagePashto
| LanguagePalauan
| LanguageBouyei
| LanguagePicard
| LanguagePennsylvaniaGerman
| LanguagePolytonicGreek
| LanguagePhake
| LanguageNorfolk
| LanguageFilipino
| LanguagePalaung
| LanguagePolish
| LanguagePiemontese
| LanguageWesternPanjabi
| LanguagePocomchi
| LanguagePohnpeian
| LanguageProvencal
| LanguagePortuguese
| LanguageWesternPwoKaren
| LanguageChin
| LanguageKiche
| LanguageQuechuaBolivia
| LanguageQuechua
| LanguageQuechuaEcuador
| LanguageQuechuaPeru
| LanguageRajasthani
| LanguageRarotongan
| LanguageRussianBuriat
| LanguageRCree
| LanguageRejang
| LanguageRiang
| LanguageTarifit
| LanguageRitarungo
| LanguageArakwal
| LanguageRomansh
| LanguageVlaxRomani
| LanguageRomanian
| LanguageRomany
| LanguageRusyn
| LanguageRotuman
| LanguageKinyarwanda
| LanguageRundi
| LanguageAromanian
| LanguageRussian
| LanguageSadri
| LanguageSanskrit
| LanguageSasak
| LanguageSantali
| LanguageSayisi
| LanguageSicilian
| LanguageScots
| LanguageSekota
| LanguageSelkup
| LanguageOldIrish
| LanguageSango
| LanguageSamogitian
| LanguageTachelhit
| LanguageShan
| LanguageSibe
| LanguageSidamo
| LanguageSilteGurage
| LanguageSkoltSami
| LanguageSlovak
| LanguageNorthSlavey
| LanguageSlavey
| LanguageSlovenian
| LanguageSomali
| LanguageSamoan
| LanguageSena
| LanguageShona
| LanguageSindhi
| LanguageSinhala
| LanguageSoninke
| LanguageSodoGurage
| LanguageSonge
| LanguageSouthernSotho
| LanguageAlbanian
| LanguageSerbian
| LanguageSardinian
| LanguageSaraiki
| LanguageSerer
| LanguageSouthSlavey
| LanguageSouthernSami
| LanguageSaterlandFrisian
| LanguageSukuma
| LanguageSundanese
| LanguageSuri
| LanguageSvan
| LanguageSwedish
| LanguageSwadayaAramaic
| LanguageSwahili
| LanguageSwati
| LanguageSutu
| LanguageUpperSaxon
| LanguageSylheti
| LanguageSyriac
| LanguageSilesian
| LanguageTabasaran
| LanguageTajiki
| LanguageTamil
| LanguageTatar
| LanguageTHCree
| LanguageDehongDai
| LanguageTelugu
| LanguageTetum
| LanguageTagalog
| LanguageTongan
| LanguageTigre
| LanguageTigrinya
| LanguageThai
| LanguageTahitian
| LanguageTibetan
| LanguageTiv
| LanguageTurkmen
| LanguageTamashek
| LanguageTemne
| LanguageTswana
| LanguageTundraNenets
| LanguageTonga
| LanguageTodo
| LanguageToma
| LanguageTokPisin
| LanguageTurkish
| LanguageTsonga
| LanguageTuroyoAramaic
| LanguageTulu
| LanguageTumbuka
| LanguageTuvin
| LanguageTuvalu
| LanguageTwi
| LanguageTay
| LanguageTamazight
| LanguageTzotzil
| LanguageUdmurt
| LanguageUkrainian
| LanguageUmbundu
| LanguageUrdu
| LanguageUpperSorbian
| LanguageUyghur
| LanguageUzbek
| LanguageVenetian
| LanguageVenda
| LanguageVietnamese
| LanguageVolapuk
| LanguageVoro
| LanguageWa
| LanguageWagdi
| LanguageWarayWaray
| LanguageWestCree
| LanguageWelsh
| LanguageWalloon
| LanguageWolof
| LanguageMewati
| LanguageLu
| LanguageXhosa
| LanguageMinjangbal
| LanguageSoga
| LanguageKpelleLiberia
| LanguageSakha
| LanguageYao
| LanguageYapese
| LanguageYoruba
| LanguageYCree
| LanguageYiClassic
| LanguageYiModern
| LanguageZealandic
| LanguageStandardMorrocanTamazigh
| LanguageZhuang
| LanguageChinese
| LanguageChinesePhonetic
| LanguageChineseSimplified
| LanguageChineseTraditional
| LanguageZande
| LanguageZulu
| LanguageZazaki
| LanguageOther (tag : tag).

(** The rows: tag and variant.  The flag is whether the row is only present with
    the feature [default-language]. *)
Definition language_rows : list (bool * tag * Language) := [
  (false, (Tag "A" "B" "A" " "), LanguageAbaza);
  (false, (Tag "A" "B" "K" " "), LanguageAbkhazian);
  (false, (Tag "A" "C" "H" " "), LanguageAcholi);
  (false, (Tag "A" "C" "R" " "), LanguageAchi);
  (false, (Tag "A" "D" "Y" " "), LanguageAdyghe);
  (false, (Tag "A" "F" "K" " "), LanguageAfrikaans);
  (false, (Tag "A" "F" "R" " "), LanguageAfar);
  (false, (Tag "A" "G" "W" " "), LanguageAgaw);
  (false, (Tag "A" "I" "O" " "), LanguageAiton);
  (false, (Tag "A" "K" "A" " "), LanguageAkan);
  (false, (Tag "A" "L" "S" " "), LanguageAlsatian);
  (false, (Tag "A" "L" "T" " "), LanguageAltai);
  (false, (Tag "A" "M" "H" " "), LanguageAmharic);
  (false, (Tag "A" "N" "G" " "), LanguageAngloSaxon);
  (false, (Tag "A" "P" "P" "H"), LanguageAmericanistPhoneticNotation);
  (false, (Tag "A" "R" "A" " "), LanguageArabic);
  (false, (Tag "A" "R" "G" " "), LanguageAragonese);
  (false, (Tag "A" "R" "I" " "), LanguageAari);
  (false, (Tag "A" "R" "K" " "), LanguageRakhine);
  (false, (Tag "A" "S" "M" " "), LanguageAssamese);
  (false, (Tag "A" "S" "T" " "), LanguageAsturian);
  (false, (Tag "A" "T" "H" " "), LanguageAthapaskan);
  (false, (Tag "A" "V" "R" " "), LanguageAvar);
  (false, (Tag "A" "W" "A" " "), LanguageAwadhi);
  (false, (Tag "A" "Y" "M" " "), LanguageAymara);
  (false, (Tag "A" "Z" "B" " "), LanguageTorki);
  (false, (Tag "A" "Z" "E" " "), LanguageAzerbaijani);
  (false, (Tag "B" "A" "D" " "), LanguageBadaga);
  (false, (Tag "B" "A" "D" "0"), LanguageBanda);
  (false, (Tag "B" "A" "G" " "), LanguageBaghelkhandi);
  (false, (Tag "B" "A" "L" " "), LanguageBalkar);
  (false, (Tag "B" "A" "N" " "), LanguageBalinese);
  (false, (Tag "B" "A" "R" " "), LanguageBavarian);
  (false, (Tag "B" "A" "U" " "), LanguageBaule);
  (false, (Tag "B" "B" "C" " "), LanguageBatakToba);
  (false, (Tag "B" "B" "R" " "), LanguageBerber);
  (false, (Tag "B" "C" "H" " "), LanguageBench);
  (false, (Tag "B" "C" "R" " "), LanguageBibleCree);
  (false, (Tag "B" "D" "Y" " "), LanguageBandjalang);
  (false, (Tag "B" "E" "L" " "), LanguageBelarussian);
  (false, (Tag "B" "E" "M" " "), LanguageBemba);
  (false, (Tag "B" "E" "N" " "), LanguageBengali);
  (false, (Tag "B" "G" "C" " "), LanguageHaryanvi);
  (false, (Tag "B" "G" "Q" " "), LanguageBagri);
  (false, (Tag "B" "G" "R" " "), LanguageBulgarian);
  (false, (Tag "B" "H" "I" " "), LanguageBhili);
  (false, (Tag "B" "H" "O" " "), LanguageBhojpuri);
  (false, (Tag "B" "I" "K" " "), LanguageBikol);
  (false, (Tag "B" "I" "L" " "), LanguageBilen);
  (false, (Tag "B" "I" "S" " "), LanguageBislama);
  (false, (Tag "B" "J" "J" " "), LanguageKanauji);
  (false, (Tag "B" "K" "F" " "), LanguageBlackfoot);
  (false, (Tag "B" "L" "I" " "), LanguageBaluchi);
  (false, (Tag "B" "L" "K" " "), LanguagePaoKaren);
  (false, (Tag "B" "L" "N" " "), LanguageBalante);
  (false, (Tag "B" "L" "T" " "), LanguageBalti);
  (false, (Tag "B" "M" "B" " "), LanguageBambara);
  (false, (Tag "B" "M" "L" " "), LanguageBamileke);
  (false, (Tag "B" "O" "S" " "), LanguageBosnian);
  (false, (Tag "B" "P" "Y" " "), LanguageBishnupriyaManipuri);
  (false, (Tag "B" "R" "E" " "), LanguageBreton);
  (false, (Tag "B" "R" "H" " "), LanguageBrahui);
  (false, (Tag "B" "R" "I" " "), LanguageBrajBhasha);
  (false, (Tag "B" "R" "M" " "), LanguageBurmese);
  (false, (Tag "B" "R" "X" " "), LanguageBodo);
  (false, (Tag "B" "S" "H" " "), LanguageBashkir);
  (false, (Tag "B" "S" "K" " "), LanguageBurushaski);
  (false, (Tag "B" "T" "I" " "), LanguageBeti);
  (false, (Tag "B" "T" "S" " "), LanguageBatakSimalungun);
  (false, (Tag "B" "U" "G" " "), LanguageBugis);
  (false, (Tag "B" "Y" "V" " "), LanguageMedumba);
  (false, (Tag "C" "A" "K" " "), LanguageKaqchikel);
  (false, (Tag "C" "A" "T" " "), LanguageCatalan);
  (false, (Tag "C" "B" "K" " "), LanguageZamboangaChavacano);
  (false, (Tag "C" "E" "B" " "), LanguageCebuano);
  (false, (Tag "C" "H" "E" " "), LanguageChechen);
  (false, (Tag "C" "H" "G" " "), LanguageChahaGurage);
  (false, (Tag "C" "H" "H" " "), LanguageChattisgarhi);
  (false, (Tag "C" "H" "I" " "), LanguageChichewa);
  (false, (Tag "C" "H" "K" " "), LanguageChukchi);
  (false, (Tag "C" "H" "K" "0"), LanguageChuukese);
  (false, (Tag "C" "H" "O" " "), LanguageChoctaw);
  (false, (Tag "C" "H" "P" " "), LanguageChipewyan);
  (false, (Tag "C" "H" "R" " "), LanguageCherokee);
  (false, (Tag "C" "H" "A" " "), LanguageChamorro);
  (false, (Tag "C" "H" "U" " "), LanguageChuvash);
  (false, (Tag "C" "H" "Y" " "), LanguageCheyenne);
  (false, (Tag "C" "G" "G" " "), LanguageChiga);
  (false, (Tag "C" "M" "R" " "), LanguageComorian);
  (false, (Tag "C" "O" "P" " "), LanguageCoptic);
  (false, (Tag "C" "O" "R" " "), LanguageCornish);
  (false, (Tag "C" "O" "S" " "), LanguageCorsican);
  (false, (Tag "C" "P" "P" " "), LanguageCreoles);
  (false, (Tag "C" "R" "E" " "), LanguageCree);
  (false, (Tag "C" "R" "R" " "), LanguageCarrier);
  (false, (Tag "C" "R" "T" " "), LanguageCrimeanTatar);
  (false, (Tag "C" "S" "B" " "), LanguageKashubian);
  (false, (Tag "C" "S" "L" " "), LanguageChurchSlavonic);
  (false, (Tag "C" "S" "Y" " "), LanguageCzech);
  (false, (Tag "C" "T" "G" " "), LanguageChittagonian);
  (false, (Tag "C" "U" "K" " "), LanguageSanBlasKuna);
  (false, (Tag "D" "A" "N" " "), LanguageDanish);
  (false, (Tag "D" "A" "R" " "), LanguageDargwa);
  (false, (Tag "D" "A" "X" " "), LanguageDayi);
  (false, (Tag "D" "C" "R" " "), LanguageWoodsCree);
  (true, (Tag "D" "F" "L" "T"), LanguageDefault);
  (false, (Tag "D" "E" "U" " "), LanguageGerman);
  (false, (Tag "D" "G" "O" " "), LanguageDogri);
  (false, (Tag "D" "G" "R" " "), LanguageDogriMacrolanguage);
  (false, (Tag "D" "H" "G" " "), LanguageDhangu);
  (false, (Tag "D" "H" "V" " "), LanguageDivehiDeprecated);
  (false, (Tag "D" "I" "Q" " "), LanguageDimli);
  (false, (Tag "D" "I" "V" " "), LanguageDivehi);
  (false, (Tag "D" "J" "R" " "), LanguageZarma);
  (false, (Tag "D" "J" "R" "0"), LanguageDjambarrpuyngu);
  (false, (Tag "D" "N" "G" " "), LanguageDangme);
  (false, (Tag "D" "N" "J" " "), LanguageDan);
  (false, (Tag "D" "N" "K" " "), LanguageDinka);
  (false, (Tag "D" "R" "I" " "), LanguageDari);
  (false, (Tag "D" "U" "J" " "), LanguageDhuwal);
  (false, (Tag "D" "U" "N" " "), LanguageDungan);
  (false, (Tag "D" "Z" "N" " "), LanguageDzongkha);
  (false, (Tag "E" "B" "I" " "), LanguageEbira);
  (false, (Tag "E" "C" "R" " "), LanguageEasternCree);
  (false, (Tag "E" "D" "O" " "), LanguageEdo);
  (false, (Tag "E" "F" "I" " "), LanguageEfik);
  (false, (Tag "E" "L" "L" " "), LanguageGreek);
  (false, (Tag "E" "M" "K" " "), LanguageEasternManinkakan);
  (false, (Tag "E" "N" "G" " "), LanguageEnglish);
  (false, (Tag "E" "R" "Z" " "), LanguageErzya);
  (false, (Tag "E" "S" "P" " "), LanguageSpanish);
  (false, (Tag "E" "S" "U" " "), LanguageCentralYupik);
  (false, (Tag "E" "T" "I" " "), LanguageEstonian);
  (false, (Tag "E" "U" "Q" " "), LanguageBasque);
  (false, (Tag "E" "V" "K" " "), LanguageEvenki);
  (false, (Tag "E" "V" "N" " "), LanguageEven);
  (false, (Tag "E" "W" "E" " "), LanguageEwe);
  (false, (Tag "F" "A" "N" " "), LanguageFrenchAntillean);
  (false, (Tag "F" "A" "N" "0"), LanguageFang);
  (false, (Tag "F" "A" "R" " "), LanguagePersian);
  (false, (Tag "F" "A" "T" " "), LanguageFanti);
  (false, (Tag "F" "I" "N" " "), LanguageFinnish);
  (false, (Tag "F" "J" "I" " "), LanguageFijian);
  (false, (Tag "F" "L" "E" " "), LanguageDutchFlemish);
  (false, (Tag "F" "M" "P" " "), LanguageFefe);
  (false, (Tag "F" "N" "E" " "), LanguageForestNenets);
  (false, (Tag "F" "O" "N" " "), LanguageFon);
  (false, (Tag "F" "O" "S" " "), LanguageFaroese);
  (false, (Tag "F" "R" "A" " "), LanguageFrench);
  (false, (Tag "F" "R" "C" " "), LanguageCajunFrench);
  (false, (Tag "F" "R" "I" " "), LanguageFrisian);
  (false, (Tag "F" "R" "L" " "), LanguageFriulian);
  (false, (Tag "F" "R" "P" " "), LanguageArpitan);
  (false, (Tag "F" "T" "A" " "), LanguageFuta);
  (false, (Tag "F" "U" "L" " "), LanguageFulah);
  (false, (Tag "F" "U" "V" " "), LanguageNigerianFulfulde);
  (false, (Tag "G" "A" "D" " "), LanguageGa);
  (false, (Tag "G" "A" "E" " "), LanguageScottishGaelic);
  (false, (Tag "G" "A" "G" " "), LanguageGagauz);
  (false, (Tag "G" "A" "L" " "), LanguageGalician);
  (false, (Tag "G" "A" "R" " "), LanguageGarshuni);
  (false, (Tag "G" "A" "W" " "), LanguageGarhwali);
  (false, (Tag "G" "E" "Z" " "), LanguageGeez);
  (false, (Tag "G" "I" "H" " "), LanguageGithabul);
  (false, (Tag "G" "I" "L" " "), LanguageGilyak);
  (false, (Tag "G" "I" "L" "0"), LanguageKiribati);
  (false, (Tag "G" "K" "P" " "), LanguageKpelleGuinea);
  (false, (Tag "G" "L" "K" " "), LanguageGilaki);
  (false, (Tag "G" "M" "Z" " "), LanguageGumuz);
  (false, (Tag "G" "N" "N" " "), LanguageGumatj);
  (false, (Tag "G" "O" "G" " "), LanguageGogo);
  (false, (Tag "G" "O" "N" " "), LanguageGondi);
  (false, (Tag "G" "R" "N" " "), LanguageGreenlandic);
  (false, (Tag "G" "R" "O" " "), LanguageGaro);
  (false, (Tag "G" "U" "A" " "), LanguageGuarani);
  (false, (Tag "G" "U" "C" " "), LanguageWayuu);
  (false, (Tag "G" "U" "F" " "), LanguageGupapuyngu);
  (false, (Tag "G" "U" "J" " "), LanguageGujarati);
  (false, (Tag "G" "U" "Z" " "), LanguageGusii);
  (false, (Tag "H" "A" "I" " "), LanguageHaitian);
  (false, (Tag "H" "A" "L" " "), LanguageHalam);
  (false, (Tag "H" "A" "R" " "), LanguageHarauti);
  (false, (Tag "H" "A" "U" " "), LanguageHausa);
  (false, (Tag "H" "A" "W" " "), LanguageHawaiian);
  (false, (Tag "H" "A" "Y" " "), LanguageHaya);
  (false, (Tag "H" "A" "Z" " "), LanguageHazaragi);
  (false, (Tag "H" "B" "N" " "), LanguageHammerBanna);
  (false, (Tag "H" "E" "R" " "), LanguageHerero);
  (false, (Tag "H" "I" "L" " "), LanguageHiligaynon);
  (false, (Tag "H" "I" "N" " "), LanguageHindi);
  (false, (Tag "H" "M" "A" " "), LanguageHighMari);
  (false, (Tag "H" "M" "N" " "), LanguageHmong);
  (false, (Tag "H" "M" "O" " "), LanguageHiriMotu);
  (false, (Tag "H" "N" "D" " "), LanguageHindko);
  (false, (Tag "H" "O" " " " "), LanguageHo);
  (false, (Tag "H" "R" "I" " "), LanguageHarari);
  (false, (Tag "H" "R" "V" " "), LanguageCroatian);
  (false, (Tag "H" "U" "N" " "), LanguageHungarian);
  (false, (Tag "H" "Y" "E" " "), LanguageArmenian);
  (false, (Tag "H" "Y" "E" "0"), LanguageArmenianEast);
  (false, (Tag "I" "B" "A" " "), LanguageIban);
  (false, (Tag "I" "B" "B" " "), LanguageIbibio);
  (false, (Tag "I" "B" "O" " "), LanguageIgbo);
  (false, (Tag "I" "J" "O" " "), LanguageIjolanguages);
  (false, (Tag "I" "D" "O" " "), LanguageIdo);
  (false, (Tag "I" "L" "E" " "), LanguageInterlingue);
  (false, (Tag "I" "L" "O" " "), LanguageIlokano);
  (false, (Tag "I" "N" "A" " "), LanguageInterlingua);
  (false, (Tag "I" "N" "D" " "), LanguageIndonesian);
  (false, (Tag "I" "N" "G" " "), LanguageIngush);
  (false, (Tag "I" "N" "U" " "), LanguageInuktitut);
  (false, (Tag "I" "P" "K" " "), LanguageInupiat);
  (false, (Tag "I" "P" "P" "H"), LanguageInternationalPhoneticAlphabet);
  (false, (Tag "I" "R" "I" " "), LanguageIrish);
  (false, (Tag "I" "R" "T" " "), LanguageIrishTraditional);
  (false, (Tag "I" "S" "L" " "), LanguageIcelandic);
  (false, (Tag "I" "S" "M" " "), LanguageInariSami);
  (false, (Tag "I" "T" "A" " "), LanguageItalian);
  (false, (Tag "I" "W" "R" " "), LanguageHebrew);
  (false, (Tag "J" "A" "M" " "), LanguageJamaicanCreole);
  (false, (Tag "J" "A" "N" " "), LanguageJapanese);
  (false, (Tag "J" "A" "V" " "), LanguageJavanese);
  (false, (Tag "J" "B" "O" " "), LanguageLojban);
  (false, (Tag "J" "C" "T" " "), LanguageKrymchak);
  (false, (Tag "J" "I" "I" " "), LanguageYiddish);
  (false, (Tag "J" "U" "D" " "), LanguageLadino);
  (false, (Tag "J" "U" "L" " "), LanguageJula);
  (false, (Tag "K" "A" "B" " "), LanguageKabardian);
  (false, (Tag "K" "A" "B" "0"), LanguageKabyle);
  (false, (Tag "K" "A" "C" " "), LanguageKachchi);
  (false, (Tag "K" "A" "L" " "), LanguageKalenjin);
  (false, (Tag "K" "A" "N" " "), LanguageKannada);
  (false, (Tag "K" "A" "R" " "), LanguageKarachay);
  (false, (Tag "K" "A" "T" " "), LanguageGeorgian);
  (false, (Tag "K" "A" "Z" " "), LanguageKazakh);
  (false, (Tag "K" "D" "E" " "), LanguageMakonde);
  (false, (Tag "K" "E" "A" " "), LanguageKabuverdianu);
  (false, (Tag "K" "E" "B" " "), LanguageKebena);
  (false, (Tag "K" "E" "K" " "), LanguageKekchi);
  (false, (Tag "K" "G" "E" " "), LanguageKhutsuriGeorgian);
  (false, (Tag "K" "H" "A" " "), LanguageKhakass);
  (false, (Tag "K" "H" "K" " "), LanguageKhantyKazim);
  (false, (Tag "K" "H" "M" " "), LanguageKhmer);
  (false, (Tag "K" "H" "S" " "), LanguageKhantyShurishkar);
  (false, (Tag "K" "H" "T" " "), LanguageKhamtiShan);
  (false, (Tag "K" "H" "V" " "), LanguageKhantyVakhi);
  (false, (Tag "K" "H" "W" " "), LanguageKhowar);
  (false, (Tag "K" "I" "K" " "), LanguageKikuyu);
  (false, (Tag "K" "I" "R" " "), LanguageKirghiz);
  (false, (Tag "K" "I" "S" " "), LanguageKisii);
  (false, (Tag "K" "I" "U" " "), LanguageKirmanjki);
  (false, (Tag "K" "J" "D" " "), LanguageSouthernKiwai);
  (false, (Tag "K" "J" "P" " "), LanguageEasternPwoKaren);
  (false, (Tag "K" "K" "N" " "), LanguageKokni);
  (false, (Tag "K" "L" "M" " "), LanguageKalmyk);
  (false, (Tag "K" "M" "B" " "), LanguageKamba);
  (false, (Tag "K" "M" "N" " "), LanguageKumaoni);
  (false, (Tag "K" "M" "O" " "), LanguageKomo);
  (false, (Tag "K" "M" "S" " "), LanguageKomso);
  (false, (Tag "K" "M" "Z" " "), LanguageKhorasaniTurkic);
  (false, (Tag "K" "N" "R" " "), LanguageKanuri);
  (false, (Tag "K" "O" "D" " "), LanguageKodagu);
  (false, (Tag "K" "O" "H" " "), LanguageKoreanOldHangul);
  (false, (Tag "K" "O" "K" " "), LanguageKonkani);
  (false, (Tag "K" "O" "N" " "), LanguageKikongo);
  (false, (Tag "K" "O" "M" " "), LanguageKomi);
  (false, (Tag "K" "O" "N" "0"), LanguageKongo);
  (false, (Tag "K" "O" "P" " "), LanguageKomiPermyak);
  (false, (Tag "K" "O" "R" " "), LanguageKorean);
  (false, (Tag "K" "O" "S" " "), LanguageKosraean);
  (false, (Tag "K" "O" "Z" " "), LanguageKomiZyrian);
  (false, (Tag "K" "P" "L" " "), LanguageKpelle);
  (false, (Tag "K" "R" "I" " "), LanguageKrio);
  (false, (Tag "K" "R" "K" " "), LanguageKarakalpak);
  (false, (Tag "K" "R" "L" " "), LanguageKarelian);
  (false, (Tag "K" "R" "M" " "), LanguageKaraim);
  (false, (Tag "K" "R" "N" " "), LanguageKaren);
  (false, (Tag "K" "R" "T" " "), LanguageKoorete);
  (false, (Tag "K" "S" "H" " "), LanguageKashmiri);
  (false, (Tag "K" "S" "H" "0"), LanguageRipuarian);
  (false, (Tag "K" "S" "I" " "), LanguageKhasi);
  (false, (Tag "K" "S" "M" " "), LanguageKildinSami);
  (false, (Tag "K" "S" "W" " "), LanguageSgawKaren);
  (false, (Tag "K" "U" "A" " "), LanguageKuanyama);
  (false, (Tag "K" "U" "I" " "), LanguageKui);
  (false, (Tag "K" "U" "L" " "), LanguageKulvi);
  (false, (Tag "K" "U" "M" " "), LanguageKumyk);
  (false, (Tag "K" "U" "R" " "), LanguageKurdish);
  (false, (Tag "K" "U" "U" " "), LanguageKurukh);
  (false, (Tag "K" "U" "Y" " "), LanguageKuy);
  (false, (Tag "K" "Y" "K" " "), LanguageKoryak);
  (false, (Tag "K" "Y" "U" " "), LanguageWesternKayah);
  (false, (Tag "L" "A" "D" " "), LanguageLadin);
  (false, (Tag "L" "A" "H" " "), LanguageLahuli);
  (false, (Tag "L" "A" "K" " "), LanguageLak);
  (false, (Tag "L" "A" "M" " "), LanguageLambani);
  (false, (Tag "L" "A" "O" " "), LanguageLao);
  (false, (Tag "L" "A" "T" " "), LanguageLatin);
  (false, (Tag "L" "A" "Z" " "), LanguageLaz);
  (false, (Tag "L" "C" "R" " "), LanguageLCree);
  (false, (Tag "L" "D" "K" " "), LanguageLadakhi);
  (false, (Tag "L" "E" "Z" " "), LanguageLezgi);
  (false, (Tag "L" "I" "J" " "), LanguageLigurian);
  (false, (Tag "L" "I" "M" " "), LanguageLimburgish);
  (false, (Tag "L" "I" "N" " "), LanguageLingala);
  (false, (Tag "L" "I" "S" " "), LanguageLisu);
  (false, (Tag "L" "J" "P" " "), LanguageLampung);
  (false, (Tag "L" "K" "I" " "), LanguageLaki);
  (false, (Tag "L" "M" "A" " "), LanguageLowMari);
  (false, (Tag "L" "M" "B" " "), LanguageLimbu);
  (false, (Tag "L" "M" "O" " "), LanguageLombard);
  (false, (Tag "L" "M" "W" " "), LanguageLomwe);
  (false, (Tag "L" "O" "M" " "), LanguageLoma);
  (false, (Tag "L" "R" "C" " "), LanguageLuri);
  (false, (Tag "L" "S" "B" " "), LanguageLowerSorbian);
  (false, (Tag "L" "S" "M" " "), LanguageLuleSami);
  (false, (Tag "L" "T" "H" " "), LanguageLithuanian);
  (false, (Tag "L" "T" "Z" " "), LanguageLuxembourgish);
  (false, (Tag "L" "U" "A" " "), LanguageLubaLulua);
  (false, (Tag "L" "U" "B" " "), LanguageLubaKatanga);
  (false, (Tag "L" "U" "G" " "), LanguageGanda);
  (false, (Tag "L" "U" "H" " "), LanguageLuyia);
  (false, (Tag "L" "U" "O" " "), LanguageLuo);
  (false, (Tag "L" "V" "I" " "), LanguageLatvian);
  (false, (Tag "M" "A" "D" " "), LanguageMadura);
  (false, (Tag "M" "A" "G" " "), LanguageMagahi);
  (false, (Tag "M" "A" "H" " "), LanguageMarshallese);
  (false, (Tag "M" "A" "J" " "), LanguageMajang);
  (false, (Tag "M" "A" "K" " "), LanguageMakhuwa);
  (false, (Tag "M" "A" "L" " "), LanguageMalayalam);
  (false, (Tag "M" "A" "M" " "), LanguageMam);
  (false, (Tag "M" "A" "N" " "), LanguageMansi);
  (false, (Tag "M" "A" "P" " "), LanguageMapudungun);
  (false, (Tag "M" "A" "R" " "), LanguageMarathi);
  (false, (Tag "M" "A" "W" " "), LanguageMarwari);
  (false, (Tag "M" "B" "N" " "), LanguageMbundu);
  (false, (Tag "M" "B" "O" " "), LanguageMbo);
  (false, (Tag "M" "C" "H" " "), LanguageManchu);
  (false, (Tag "M" "C" "R" " "), LanguageMooseCree);
  (false, (Tag "M" "D" "E" " "), LanguageMende);
  (false, (Tag "M" "D" "R" " "), LanguageMandar);
  (false, (Tag "M" "E" "N" " "), LanguageMeen);
  (false, (Tag "M" "E" "R" " "), LanguageMeru);
  (false, (Tag "M" "F" "E" " "), LanguageMorisyen);
  (false, (Tag "M" "I" "N" " "), LanguageMinangkabau);
  (false, (Tag "M" "I" "Z" " "), LanguageMizo);
  (false, (Tag "M" "K" "D" " "), LanguageMacedonian);
  (false, (Tag "M" "K" "R" " "), LanguageMakasar);
  (false, (Tag "M" "K" "W" " "), LanguageKituba);
  (false, (Tag "M" "L" "E" " "), LanguageMale);
  (false, (Tag "M" "L" "G" " "), LanguageMalagasy);
  (false, (Tag "M" "L" "N" " "), LanguageMalinke);
  (false, (Tag "M" "L" "R" " "), LanguageMalayalamReformed);
  (false, (Tag "M" "L" "Y" " "), LanguageMalay);
  (false, (Tag "M" "N" "D" " "), LanguageMandinka);
  (false, (Tag "M" "N" "G" " "), LanguageMongolian);
  (false, (Tag "M" "N" "I" " "), LanguageManipuri);
  (false, (Tag "M" "N" "K" " "), LanguageManinka);
  (false, (Tag "M" "N" "X" " "), LanguageManx);
  (false, (Tag "M" "O" "H" " "), LanguageMohawk);
  (false, (Tag "M" "O" "K" " "), LanguageMoksha);
  (false, (Tag "M" "O" "L" " "), LanguageMoldavian);
  (false, (Tag "M" "O" "N" " "), LanguageMon);
  (false, (Tag "M" "O" "R" " "), LanguageMoroccan);
  (false, (Tag "M" "O" "S" " "), LanguageMossi);
  (false, (Tag "M" "R" "I" " "), LanguageMaori);
  (false, (Tag "M" "T" "H" " "), LanguageMaithili);
  (false, (Tag "M" "T" "S" " "), LanguageMaltese);
  (false, (Tag "M" "U" "N" " "), LanguageMundari);
  (false, (Tag "M" "U" "S" " "), LanguageMuscogee);
  (false, (Tag "M" "W" "L" " "), LanguageMirandese);
  (false, (Tag "M" "W" "W" " "), LanguageHmongDaw);
  (false, (Tag "M" "Y" "N" " "), LanguageMayan);
  (false, (Tag "M" "Z" "N" " "), LanguageMazanderani);
  (false, (Tag "N" "A" "G" " "), LanguageNagaAssamese);
  (false, (Tag "N" "A" "H" " "), LanguageNahuatl);
  (false, (Tag "N" "A" "N" " "), LanguageNanai);
  (false, (Tag "N" "A" "P" " "), LanguageNeapolitan);
  (false, (Tag "N" "A" "S" " "), LanguageNaskapi);
  (false, (Tag "N" "A" "U" " "), LanguageNauruan);
  (false, (Tag "N" "A" "V" " "), LanguageNavajo);
  (false, (Tag "N" "C" "R" " "), LanguageNCree);
  (false, (Tag "N" "D" "B" " "), LanguageNdebele);
  (false, (Tag "N" "D" "C" " "), LanguageNdau);
  (false, (Tag "N" "D" "G" " "), LanguageNdonga);
  (false, (Tag "N" "D" "S" " "), LanguageLowSaxon);
  (false, (Tag "N" "E" "P" " "), LanguageNepali);
  (false, (Tag "N" "E" "W" " "), LanguageNewari);
  (false, (Tag "N" "G" "A" " "), LanguageNgbaka);
  (false, (Tag "N" "G" "R" " "), LanguageNagari);
  (false, (Tag "N" "H" "C" " "), LanguageNorwayHouseCree);
  (false, (Tag "N" "I" "S" " "), LanguageNisi);
  (false, (Tag "N" "I" "U" " "), LanguageNiuean);
  (false, (Tag "N" "K" "L" " "), LanguageNyankole);
  (false, (Tag "N" "K" "O" " "), LanguageNKo);
  (false, (Tag "N" "L" "D" " "), LanguageDutch);
  (false, (Tag "N" "O" "E" " "), LanguageNimadi);
  (false, (Tag "N" "O" "G" " "), LanguageNogai);
  (false, (Tag "N" "O" "R" " "), LanguageNorwegian);
  (false, (Tag "N" "O" "V" " "), LanguageNovial);
  (false, (Tag "N" "S" "M" " "), LanguageNorthernSami);
  (false, (Tag "N" "S" "O" " "), LanguageNorthernSotho);
  (false, (Tag "N" "T" "A" " "), LanguageNorthernTai);
  (false, (Tag "N" "T" "O" " "), LanguageEsperanto);
  (false, (Tag "N" "Y" "M" " "), LanguageNyamwezi);
  (false, (Tag "N" "Y" "N" " "), LanguageNorwegianNynorsk);
  (false, (Tag "N" "Z" "A" " "), LanguageMbembeTigon);
  (false, (Tag "O" "C" "I" " "), LanguageOccitan);
  (false, (Tag "O" "C" "R" " "), LanguageOjiCree);
  (false, (Tag "O" "J" "B" " "), LanguageOjibway);
  (false, (Tag "O" "R" "I" " "), LanguageOdia);
  (false, (Tag "O" "R" "O" " "), LanguageOromo);
  (false, (Tag "O" "S" "S" " "), LanguageOssetian);
  (false, (Tag "P" "A" "A" " "), LanguagePalestinianAramaic);
  (false, (Tag "P" "A" "G" " "), LanguagePangasinan);
  (false, (Tag "P" "A" "L" " "), LanguagePali);
  (false, (Tag "P" "A" "M" " "), LanguagePampangan);
  (false, (Tag "P" "A" "N" " "), LanguagePunjabi);
  (false, (Tag "P" "A" "P" " "), LanguagePalpa);
  (false, (Tag "P" "A" "P" "0"), LanguagePapiamentu);
  (false, (Tag "P" "A" "S" " "), LanguagePashto);
  (false, (Tag "P" "A" "U" " "), LanguagePalauan);
  (false, (Tag "P" "C" "C" " "), LanguageBouyei);
  (false, (Tag "P" "C" "D" " "), LanguagePicard);
  (false, (Tag "P" "D" "C" " "), LanguagePennsylvaniaGerman);
  (false, (Tag "P" "G" "R" " "), LanguagePolytonicGreek);
  (false, (Tag "P" "H" "K" " "), LanguagePhake);
  (false, (Tag "P" "I" "H" " "), LanguageNorfolk);
  (false, (Tag "P" "I" "L" " "), LanguageFilipino);
  (false, (Tag "P" "L" "G" " "), LanguagePalaung);
  (false, (Tag "P" "L" "K" " "), LanguagePolish);
  (false, (Tag "P" "M" "S" " "), LanguagePiemontese);
  (false, (Tag "P" "N" "B" " "), LanguageWesternPanjabi);
  (false, (Tag "P" "O" "H" " "), LanguagePocomchi);
  (false, (Tag "P" "O" "N" " "), LanguagePohnpeian);
  (false, (Tag "P" "R" "O" " "), LanguageProvencal);
  (false, (Tag "P" "T" "G" " "), LanguagePortuguese);
  (false, (Tag "P" "W" "O" " "), LanguageWesternPwoKaren);
  (false, (Tag "Q" "I" "N" " "), LanguageChin);
  (false, (Tag "Q" "U" "C" " "), LanguageKiche);
  (false, (Tag "Q" "U" "H" " "), LanguageQuechuaBolivia);
  (false, (Tag "Q" "U" "Z" " "), LanguageQuechua);
  (false, (Tag "Q" "V" "I" " "), LanguageQuechuaEcuador);
  (false, (Tag "Q" "W" "H" " "), LanguageQuechuaPeru);
  (false, (Tag "R" "A" "J" " "), LanguageRajasthani);
  (false, (Tag "R" "A" "R" " "), LanguageRarotongan);
  (false, (Tag "R" "B" "U" " "), LanguageRussianBuriat);
  (false, (Tag "R" "C" "R" " "), LanguageRCree);
  (false, (Tag "R" "E" "J" " "), LanguageRejang);
  (false, (Tag "R" "I" "A" " "), LanguageRiang);
  (false, (Tag "R" "I" "F" " "), LanguageTarifit);
  (false, (Tag "R" "I" "T" " "), LanguageRitarungo);
  (false, (Tag "R" "K" "W" " "), LanguageArakwal);
  (false, (Tag "R" "M" "S" " "), LanguageRomansh);
  (false, (Tag "R" "M" "Y" " "), LanguageVlaxRomani);
  (false, (Tag "R" "O" "M" " "), LanguageRomanian);
  (false, (Tag "R" "O" "Y" " "), LanguageRomany);
  (false, (Tag "R" "S" "Y" " "), LanguageRusyn);
  (false, (Tag "R" "T" "M" " "), LanguageRotuman);
  (false, (Tag "R" "U" "A" " "), LanguageKinyarwanda);
  (false, (Tag "R" "U" "N" " "), LanguageRundi);
  (false, (Tag "R" "U" "P" " "), LanguageAromanian);
  (false, (Tag "R" "U" "S" " "), LanguageRussian);
  (false, (Tag "S" "A" "D" " "), LanguageSadri);
  (false, (Tag "S" "A" "N" " "), LanguageSanskrit);
  (false, (Tag "S" "A" "S" " "), LanguageSasak);
  (false, (Tag "S" "A" "T" " "), LanguageSantali);
  (false, (Tag "S" "A" "Y" " "), LanguageSayisi);
  (false, (Tag "S" "C" "N" " "), LanguageSicilian);
  (false, (Tag "S" "C" "O" " "), LanguageScots);
  (false, (Tag "S" "E" "K" " "), LanguageSekota);
  (false, (Tag "S" "E" "L" " "), LanguageSelkup);
  (false, (Tag "S" "G" "A" " "), LanguageOldIrish);
  (false, (Tag "S" "G" "O" " "), LanguageSango);
  (false, (Tag "S" "G" "S" " "), LanguageSamogitian);
  (false, (Tag "S" "H" "I" " "), LanguageTachelhit);
  (false, (Tag "S" "H" "N" " "), LanguageShan);
  (false, (Tag "S" "I" "B" " "), LanguageSibe);
  (false, (Tag "S" "I" "D" " "), LanguageSidamo);
  (false, (Tag "S" "I" "G" " "), LanguageSilteGurage);
  (false, (Tag "S" "K" "S" " "), LanguageSkoltSami);
  (false, (Tag "S" "K" "Y" " "), LanguageSlovak);
  (false, (Tag "S" "C" "S" " "), LanguageNorthSlavey);
  (false, (Tag "S" "L" "A" " "), LanguageSlavey);
  (false, (Tag "S" "L" "V" " "), LanguageSlovenian);
  (false, (Tag "S" "M" "L" " "), LanguageSomali);
  (false, (Tag "S" "M" "O" " "), LanguageSamoan);
  (false, (Tag "S" "N" "A" " "), LanguageSena);
  (false, (Tag "S" "N" "A" "0"), LanguageShona);
  (false, (Tag "S" "N" "D" " "), LanguageSindhi);
  (false, (Tag "S" "N" "H" " "), LanguageSinhala);
  (false, (Tag "S" "N" "K" " "), LanguageSoninke);
  (false, (Tag "S" "O" "G" " "), LanguageSodoGurage);
  (false, (Tag "S" "O" "P" " "), LanguageSonge);
  (false, (Tag "S" "O" "T" " "), LanguageSouthernSotho);
  (false, (Tag "S" "Q" "I" " "), LanguageAlbanian);
  (false, (Tag "S" "R" "B" " "), LanguageSerbian);
  (false, (Tag "S" "R" "D" " "), LanguageSardinian);
  (false, (Tag "S" "R" "K" " "), LanguageSaraiki);
  (false, (Tag "S" "R" "R" " "), LanguageSerer);
  (false, (Tag "S" "S" "L" " "), LanguageSouthSlavey);
  (false, (Tag "S" "S" "M" " "), LanguageSouthernSami);
  (false, (Tag "S" "T" "Q" " "), LanguageSaterlandFrisian);
  (false, (Tag "S" "U" "K" " "), LanguageSukuma);
  (false, (Tag "S" "U" "N" " "), LanguageSundanese);
  (false, (Tag "S" "U" "R" " "), LanguageSuri);
  (false, (Tag "S" "V" "A" " "), LanguageSvan);
  (false, (Tag "S" "V" "E" " "), LanguageSwedish);
  (false, (Tag "S" "W" "A" " "), LanguageSwadayaAramaic);
  (false, (Tag "S" "W" "K" " "), LanguageSwahili);
  (false, (Tag "S" "W" "Z" " "), LanguageSwati);
  (false, (Tag "S" "X" "T" " "), LanguageSutu);
  (false, (Tag "S" "X" "U" " "), LanguageUpperSaxon);
  (false, (Tag "S" "Y" "L" " "), LanguageSylheti);
  (false, (Tag "S" "Y" "R" " "), LanguageSyriac);
  (false, (Tag "S" "Z" "L" " "), LanguageSilesian);
  (false, (Tag "T" "A" "B" " "), LanguageTabasaran);
  (false, (Tag "T" "A" "J" " "), LanguageTajiki);
  (false, (Tag "T" "A" "M" " "), LanguageTamil);
  (false, (Tag "T" "A" "T" " "), LanguageTatar);
  (false, (Tag "T" "C" "R" " "), LanguageTHCree);
  (false, (Tag "T" "D" "D" " "), LanguageDehongDai);
  (false, (Tag "T" "E" "L" " "), LanguageTelugu);
  (false, (Tag "T" "E" "T" " "), LanguageTetum);
  (false, (Tag "T" "G" "L" " "), LanguageTagalog);
  (false, (Tag "T" "G" "N" " "), LanguageTongan);
  (false, (Tag "T" "G" "R" " "), LanguageTigre);
  (false, (Tag "T" "G" "Y" " "), LanguageTigrinya);
  (false, (Tag "T" "H" "A" " "), LanguageThai);
  (false, (Tag "T" "H" "T" " "), LanguageTahitian);
  (false, (Tag "T" "I" "B" " "), LanguageTibetan);
  (false, (Tag "T" "I" "V" " "), LanguageTiv);
  (false, (Tag "T" "K" "M" " "), LanguageTurkmen);
  (false, (Tag "T" "M" "H" " "), LanguageTamashek);
  (false, (Tag "T" "M" "N" " "), LanguageTemne);
  (false, (Tag "T" "N" "A" " "), LanguageTswana);
  (false, (Tag "T" "N" "E" " "), LanguageTundraNenets);
  (false, (Tag "T" "N" "G" " "), LanguageTonga);
  (false, (Tag "T" "O" "D" " "), LanguageTodo);
  (false, (Tag "T" "O" "D" "0"), LanguageToma);
  (false, (Tag "T" "P" "I" " "), LanguageTokPisin);
  (false, (Tag "T" "R" "K" " "), LanguageTurkish);
  (false, (Tag "T" "S" "G" " "), LanguageTsonga);
  (false, (Tag "T" "U" "A" " "), LanguageTuroyoAramaic);
  (false, (Tag "T" "U" "M" " "), LanguageTulu);
  (false, (Tag "T" "U" "L" " "), LanguageTumbuka);
  (false, (Tag "T" "U" "V" " "), LanguageTuvin);
  (false, (Tag "T" "V" "L" " "), LanguageTuvalu);
  (false, (Tag "T" "W" "I" " "), LanguageTwi);
  (false, (Tag "T" "Y" "Z" " "), LanguageTay);
  (false, (Tag "T" "Z" "M" " "), LanguageTamazight);
  (false, (Tag "T" "Z" "O" " "), LanguageTzotzil);
  (false, (Tag "U" "D" "M" " "), LanguageUdmurt);
  (false, (Tag "U" "K" "R" " "), LanguageUkrainian);
  (false, (Tag "U" "M" "B" " "), LanguageUmbundu);
  (false, (Tag "U" "R" "D" " "), LanguageUrdu);
  (false, (Tag "U" "S" "B" " "), LanguageUpperSorbian);
  (false, (Tag "U" "Y" "G" " "), LanguageUyghur);
  (false, (Tag "U" "Z" "B" " "), LanguageUzbek);
  (false, (Tag "V" "E" "C" " "), LanguageVenetian);
  (false, (Tag "V" "E" "N" " "), LanguageVenda);
  (false, (Tag "V" "I" "T" " "), LanguageVietnamese);
  (false, (Tag "V" "O" "L" " "), LanguageVolapuk);
  (false, (Tag "V" "R" "O" " "), LanguageVoro);
  (false, (Tag "W" "A" " " " "), LanguageWa);
  (false, (Tag "W" "A" "G" " "), LanguageWagdi);
  (false, (Tag "W" "A" "R" " "), LanguageWarayWaray);
  (false, (Tag "W" "C" "R" " "), LanguageWestCree);
  (false, (Tag "W" "E" "L" " "), LanguageWelsh);
  (false, (Tag "W" "L" "N" " "), LanguageWalloon);
  (false, (Tag "W" "L" "F" " "), LanguageWolof);
  (false, (Tag "W" "T" "M" " "), LanguageMewati);
  (false, (Tag "X" "B" "D" " "), LanguageLu);
  (false, (Tag "X" "H" "S" " "), LanguageXhosa);
  (false, (Tag "X" "J" "B" " "), LanguageMinjangbal);
  (false, (Tag "X" "O" "G" " "), LanguageSoga);
  (false, (Tag "X" "P" "E" " "), LanguageKpelleLiberia);
  (false, (Tag "Y" "A" "K" " "), LanguageSakha);
  (false, (Tag "Y" "A" "O" " "), LanguageYao);
  (false, (Tag "Y" "A" "P" " "), LanguageYapese);
  (false, (Tag "Y" "B" "A" " "), LanguageYoruba);
  (false, (Tag "Y" "C" "R" " "), LanguageYCree);
  (false, (Tag "Y" "I" "C" " "), LanguageYiClassic);
  (false, (Tag "Y" "I" "M" " "), LanguageYiModern);
  (false, (Tag "Z" "E" "A" " "), LanguageZealandic);
  (false, (Tag "Z" "G" "H" " "), LanguageStandardMorrocanTamazigh);
  (false, (Tag "Z" "H" "A" " "), LanguageZhuang);
  (false, (Tag "Z" "H" "H" " "), LanguageChinese);
  (false, (Tag "Z" "H" "P" " "), LanguageChinesePhonetic);
  (false, (Tag "Z" "H" "S" " "), LanguageChineseSimplified);
  (false, (Tag "Z" "H" "T" " "), LanguageChineseTraditional);
  (false, (Tag "Z" "N" "D" " "), LanguageZande);
  (false, (Tag "Z" "U" "L" " "), LanguageZulu);
  (false, (Tag "Z" "Z" "A" " "), LanguageZazaki)].

(** [From<Language> for Tag]. *)
Definition language_tag (value : Language) : tag :=
  match value with
  | LanguageAbaza => (Tag "A" "B" "A" " ")
  | LanguageAbkhazian => (Tag "A" "B" "K" " ")
  | LanguageAcholi => (Tag "A" "C" "H" " ")
  | LanguageAchi => (Tag "A" "C" "R" " ")
  | LanguageAdyghe => (Tag "A" "D" "Y" " ")
  | LanguageAfrikaans => (Tag "A" "F" "K" " ")
  | LanguageAfar => (Tag "A" "F" "R" " ")
  | LanguageAgaw => (Tag "A" "G" "W" " ")
  | LanguageAiton => (Tag "A" "I" "O" " ")
  | LanguageAkan => (Tag "A" "K" "A" " ")
  | LanguageAlsatian => (Tag "A" "L" "S" " ")
  | LanguageAltai => (Tag "A" "L" "T" " ")
  | LanguageAmharic => (Tag "A" "M" "H" " ")
  | LanguageAngloSaxon => (Tag "A" "N" "G" " ")
  | LanguageAmericanistPhoneticNotation => (Tag "A" "P" "P" "H")
  | LanguageArabic => (Tag "A" "R" "A" " ")
  | LanguageAragonese => (Tag "A" "R" "G" " ")
  | LanguageAari => (Tag "A" "R" "I" " ")
  | LanguageRakhine => (Tag "A" "R" "K" " ")
  | LanguageAssamese => (Tag "A" "S" "M" " ")
  | LanguageAsturian => (Tag "A" "S" "T" " ")
  | LanguageAthapaskan => (Tag "A" "T" "H" " ")
  | LanguageAvar => (Tag "A" "V" "R" " ")
  | LanguageAwadhi => (Tag "A" "W" "A" " ")
  | LanguageAymara => (Tag "A" "Y" "M" " ")
  | LanguageTorki => (Tag "A" "Z" "B" " ")
  | LanguageAzerbaijani => (Tag "A" "Z" "E" " ")
  | LanguageBadaga => (Tag "B" "A" "D" " ")
  | LanguageBanda => (Tag "B" "A" "D" "0")
  | LanguageBaghelkhandi => (Tag "B" "A" "G" " ")
  | LanguageBalkar => (Tag "B" "A" "L" " ")
  | LanguageBalinese => (Tag "B" "A" "N" " ")
  | LanguageBavarian => (Tag "B" "A" "R" " ")
  | LanguageBaule => (Tag "B" "A" "U" " ")
  | LanguageBatakToba => (Tag "B" "B" "C" " ")
  | LanguageBerber => (Tag "B" "B" "R" " ")
  | LanguageBench => (Tag "B" "C" "H" " ")
  | LanguageBibleCree => (Tag "B" "C" "R" " ")
  | LanguageBandjalang => (Tag "B" "D" "Y" " ")
  | LanguageBelarussian => (Tag "B" "E" "L" " ")
  | LanguageBemba => (Tag "B" "E" "M" " ")
  | LanguageBengali => (Tag "B" "E" "N" " ")
  | LanguageHaryanvi => (Tag "B" "G" "C" " ")
  | LanguageBagri => (Tag "B" "G" "Q" " ")
  | LanguageBulgarian => (Tag "B" "G" "R" " ")
  | LanguageBhili => (Tag "B" "H" "I" " ")
  | LanguageBhojpuri => (Tag "B" "H" "O" " ")
  | LanguageBikol => (Tag "B" "I" "K" " ")
  | LanguageBilen => (Tag "B" "I" "L" " ")
  | LanguageBislama => (Tag "B" "I" "S" " ")
  | LanguageKanauji => (Tag "B" "J" "J" " ")
  | LanguageBlackfoot => (Tag "B" "K" "F" " ")
  | LanguageBaluchi => (Tag "B" "L" "I" " ")
  | LanguagePaoKaren => (Tag "B" "L" "K" " ")
  | LanguageBalante => (Tag "B" "L" "N" " ")
  | LanguageBalti => (Tag "B" "L" "T" " ")
  | LanguageBambara => (Tag "B" "M" "B" " ")
  | LanguageBamileke => (Tag "B" "M" "L" " ")
  | LanguageBosnian => (Tag "B" "O" "S" " ")
  | LanguageBishnupriyaManipuri => (Tag "B" "P" "Y" " ")
  | LanguageBreton => (Tag "B" "R" "E" " ")
  | LanguageBrahui => (Tag "B" "R" "H" " ")
  | LanguageBrajBhasha => (Tag "B" "R" "I" " ")
  | LanguageBurmese => (Tag "B" "R" "M" " ")
  | LanguageBodo => (Tag "B" "R" "X" " ")
  | LanguageBashkir => (Tag "B" "S" "H" " ")
  | LanguageBurushaski => (Tag "B" "S" "K" " ")
  | LanguageBeti => (Tag "B" "T" "I" " ")
  | LanguageBatakSimalungun => (Tag "B" "T" "S" " ")
  | LanguageBugis => (Tag "B" "U" "G" " ")
  | LanguageMedumba => (Tag "B" "Y" "V" " ")
  | LanguageKaqchikel => (Tag "C" "A" "K" " ")
  | LanguageCatalan => (Tag "C" "A" "T" " ")
  | LanguageZamboangaChavacano => (Tag "C" "B" "K" " ")
  | LanguageCebuano => (Tag "C" "E" "B" " ")
  | LanguageChechen => (Tag "C" "H" "E" " ")
  | LanguageChahaGurage => (Tag "C" "H" "G" " ")
  | LanguageChattisgarhi => (Tag "C" "H" "H" " ")
  | LanguageChichewa => (Tag "C" "H" "I" " ")
  | LanguageChukchi => (Tag "C" "H" "K" " ")
  | LanguageChuukese => (Tag "C" "H" "K" "0")
  | LanguageChoctaw => (Tag "C" "H" "O" " ")
  | LanguageChipewyan => (Tag "C" "H" "P" " ")
  | LanguageCherokee => (Tag "C" "H" "R" " ")
  | LanguageChamorro => (Tag "C" "H" "A" " ")
  | LanguageChuvash => (Tag "C" "H" "U" " ")
  | LanguageCheyenne => (Tag "C" "H" "Y" " ")
  | LanguageChiga => (Tag "C" "G" "G" " ")
  | LanguageComorian => (Tag "C" "M" "R" " ")
  | LanguageCoptic => (Tag "C" "O" "P" " ")
  | LanguageCornish => (Tag "C" "O" "R" " ")
  | LanguageCorsican => (Tag "C" "O" "S" " ")
  | LanguageCreoles => (Tag "C" "P" "P" " ")
  | LanguageCree => (Tag "C" "R" "E" " ")
  | LanguageCarrier => (Tag "C" "R" "R" " ")
  | LanguageCrimeanTatar => (Tag "C" "R" "T" " ")
  | LanguageKashubian => (Tag "C" "S" "B" " ")
  | LanguageChurchSlavonic => (Tag "C" "S" "L" " ")
  | LanguageCzech => (Tag "C" "S" "Y" " ")
  | LanguageChittagonian => (Tag "C" "T" "G" " ")
  | LanguageSanBlasKuna => (Tag "C" "U" "K" " ")
  | LanguageDanish => (Tag "D" "A" "N" " ")
  | LanguageDargwa => (Tag "D" "A" "R" " ")
  | LanguageDayi => (Tag "D" "A" "X" " ")
  | LanguageWoodsCree => (Tag "D" "C" "R" " ")
  | LanguageDefault => (Tag "D" "F" "L" "T")
  | LanguageGerman => (Tag "D" "E" "U" " ")
  | LanguageDogri => (Tag "D" "G" "O" " ")
  | LanguageDogriMacrolanguage => (Tag "D" "G" "R" " ")
  | LanguageDhangu => (Tag "D" "H" "G" " ")
  | LanguageDivehiDeprecated => (Tag "D" "H" "V" " ")
  | LanguageDimli => (Tag "D" "I" "Q" " ")
  | LanguageDivehi => (Tag "D" "I" "V" " ")
  | LanguageZarma => (Tag "D" "J" "R" " ")
  | LanguageDjambarrpuyngu => (Tag "D" "J" "R" "0")
  | LanguageDangme => (Tag "D" "N" "G" " ")
  | LanguageDan => (Tag "D" "N" "J" " ")
  | LanguageDinka => (Tag "D" "N" "K" " ")
  | LanguageDari => (Tag "D" "R" "I" " ")
  | LanguageDhuwal => (Tag "D" "U" "J" " ")
  | LanguageDungan => (Tag "D" "U" "N" " ")
  | LanguageDzongkha => (Tag "D" "Z" "N" " ")
  | LanguageEbira => (Tag "E" "B" "I" " ")
  | LanguageEasternCree => (Tag "E" "C" "R" " ")
  | LanguageEdo => (Tag "E" "D" "O" " ")
  | LanguageEfik => (Tag "E" "F" "I" " ")
  | LanguageGreek => (Tag "E" "L" "L" " ")
  | LanguageEasternManinkakan => (Tag "E" "M" "K" " ")
  | LanguageEnglish => (Tag "E" "N" "G" " ")
  | LanguageErzya => (Tag "E" "R" "Z" " ")
  | LanguageSpanish => (Tag "E" "S" "P" " ")
  | LanguageCentralYupik => (Tag "E" "S" "U" " ")
  | LanguageEstonian => (Tag "E" "T" "I" " ")
  | LanguageBasque => (Tag "E" "U" "Q" " ")
  | LanguageEvenki => (Tag "E" "V" "K" " ")
  | LanguageEven => (Tag "E" "V" "N" " ")
  | LanguageEwe => (Tag "E" "W" "E" " ")
  | LanguageFrenchAntillean => (Tag "F" "A" "N" " ")
  | LanguageFang => (Tag "F" "A" "N" "0")
  | LanguagePersian => (Tag "F" "A" "R" " ")
  | LanguageFanti => (Tag "F" "A" "T" " ")
  | LanguageFinnish => (Tag "F" "I" "N" " ")
  | LanguageFijian => (Tag "F" "J" "I" " ")
  | LanguageDutchFlemish => (Tag "F" "L" "E" " ")
  | LanguageFefe => (Tag "F" "M" "P" " ")
  | LanguageForestNenets => (Tag "F" "N" "E" " ")
  | LanguageFon => (Tag "F" "O" "N" " ")
  | LanguageFaroese => (Tag "F" "O" "S" " ")
  | LanguageFrench => (Tag "F" "R" "A" " ")
  | LanguageCajunFrench => (Tag "F" "R" "C" " ")
  | LanguageFrisian => (Tag "F" "R" "I" " ")
  | LanguageFriulian => (Tag "F" "R" "L" " ")
  | LanguageArpitan => (Tag "F" "R" "P" " ")
  | LanguageFuta => (Tag "F" "T" "A" " ")
  | LanguageFulah => (Tag "F" "U" "L" " ")
  | LanguageNigerianFulfulde => (Tag "F" "U" "V" " ")
  | LanguageGa => (Tag "G" "A" "D" " ")
  | LanguageScottishGaelic => (Tag "G" "A" "E" " ")
  | LanguageGagauz => (Tag "G" "A" "G" " ")
  | LanguageGalician => (Tag "G" "A" "L" " ")
  | LanguageGarshuni => (Tag "G" "A" "R" " ")
  | LanguageGarhwali => (Tag "G" "A" "W" " ")
  | LanguageGeez => (Tag "G" "E" "Z" " ")
  | LanguageGithabul => (Tag "G" "I" "H" " ")
  | LanguageGilyak => (Tag "G" "I" "L" " ")
  | LanguageKiribati => (Tag "G" "I" "L" "0")
  | LanguageKpelleGuinea => (Tag "G" "K" "P" " ")
  | LanguageGilaki => (Tag "G" "L" "K" " ")
  | LanguageGumuz => (Tag "G" "M" "Z" " ")
  | LanguageGumatj => (Tag "G" "N" "N" " ")
  | LanguageGogo => (Tag "G" "O" "G" " ")
  | LanguageGondi => (Tag "G" "O" "N" " ")
  | LanguageGreenlandic => (Tag "G" "R" "N" " ")
  | LanguageGaro => (Tag "G" "R" "O" " ")
  | LanguageGuarani => (Tag "G" "U" "A" " ")
  | LanguageWayuu => (Tag "G" "U" "C" " ")
  | LanguageGupapuyngu => (Tag "G" "U" "F" " ")
  | LanguageGujarati => (Tag "G" "U" "J" " ")
  | LanguageGusii => (Tag "G" "U" "Z" " ")
  | LanguageHaitian => (Tag "H" "A" "I" " ")
  | LanguageHalam => (Tag "H" "A" "L" " ")
  | LanguageHarauti => (Tag "H" "A" "R" " ")
  | LanguageHausa => (Tag "H" "A" "U" " ")
  | LanguageHawaiian => (Tag "H" "A" "W" " ")
  | LanguageHaya => (Tag "H" "A" "Y" " ")
  | LanguageHazaragi => (Tag "H" "A" "Z" " ")
  | LanguageHammerBanna => (Tag "H" "B" "N" " ")
  | LanguageHerero => (Tag "H" "E" "R" " ")
  | LanguageHiligaynon => (Tag "H" "I" "L" " ")
  | LanguageHindi => (Tag "H" "I" "N" " ")
  | LanguageHighMari => (Tag "H" "M" "A" " ")
  | LanguageHmong => (Tag "H" "M" "N" " ")
  | LanguageHiriMotu => (Tag "H" "M" "O" " ")
  | LanguageHindko => (Tag "H" "N" "D" " ")
  | LanguageHo => (Tag "H" "O" " " " ")
  | LanguageHarari => (Tag "H" "R" "I" " ")
  | LanguageCroatian => (Tag "H" "R" "V" " ")
  | LanguageHungarian => (Tag "H" "U" "N" " ")
  | LanguageArmenian => (Tag "H" "Y" "E" " ")
  | LanguageArmenianEast => (Tag "H" "Y" "E" "0")
  | LanguageIban => (Tag "I" "B" "A" " ")
  | LanguageIbibio => (Tag "I" "B" "B" " ")
  | LanguageIgbo => (Tag "I" "B" "O" " ")
  | LanguageIjolanguages => (Tag "I" "J" "O" " ")
  | LanguageIdo => (Tag "I" "D" "O" " ")
  | LanguageInterlingue => (Tag "I" "L" "E" " ")
  | LanguageIlokano => (Tag "I" "L" "O" " ")
  | LanguageInterlingua => (Tag "I" "N" "A" " ")
  | LanguageIndonesian => (Tag "I" "N" "D" " ")
  | LanguageIngush => (Tag "I" "N" "G" " ")
  | LanguageInuktitut => (Tag "I" "N" "U" " ")
  | LanguageInupiat => (Tag "I" "P" "K" " ")
  | LanguageInternationalPhoneticAlphabet => (Tag "I" "P" "P" "H")
  | LanguageIrish => (Tag "I" "R" "I" " ")
  | LanguageIrishTraditional => (Tag "I" "R" "T" " ")
  | LanguageIcelandic => (Tag "I" "S" "L" " ")
  | LanguageInariSami => (Tag "I" "S" "M" " ")
  | LanguageItalian => (Tag "I" "T" "A" " ")
  | LanguageHebrew => (Tag "I" "W" "R" " ")
  | LanguageJamaicanCreole => (Tag "J" "A" "M" " ")
  | LanguageJapanese => (Tag "J" "A" "N" " ")
  | LanguageJavanese => (Tag "J" "A" "V" " ")
  | LanguageLojban => (Tag "J" "B" "O" " ")
  | LanguageKrymchak => (Tag "J" "C" "T" " ")
  | LanguageYiddish => (Tag "J" "I" "I" " ")
  | LanguageLadino => (Tag "J" "U" "D" " ")
  | LanguageJula => (Tag "J" "U" "L" " ")
  | LanguageKabardian => (Tag "K" "A" "B" " ")
  | LanguageKabyle => (Tag "K" "A" "B" "0")
  | LanguageKachchi => (Tag "K" "A" "C" " ")
  | LanguageKalenjin => (Tag "K" "A" "L" " ")
  | LanguageKannada => (Tag "K" "A" "N" " ")
  | LanguageKarachay => (Tag "K" "A" "R" " ")
  | LanguageGeorgian => (Tag "K" "A" "T" " ")
  | LanguageKazakh => (Tag "K" "A" "Z" " ")
  | LanguageMakonde => (Tag "K" "D" "E" " ")
  | LanguageKabuverdianu => (Tag "K" "E" "A" " ")
  | LanguageKebena => (Tag "K" "E" "B" " ")
  | LanguageKekchi => (Tag "K" "E" "K" " ")
  | LanguageKhutsuriGeorgian => (Tag "K" "G" "E" " ")
  | LanguageKhakass => (Tag "K" "H" "A" " ")
  | LanguageKhantyKazim => (Tag "K" "H" "K" " ")
  | LanguageKhmer => (Tag "K" "H" "M" " ")
  | LanguageKhantyShurishkar => (Tag "K" "H" "S" " ")
  | LanguageKhamtiShan => (Tag "K" "H" "T" " ")
  | LanguageKhantyVakhi => (Tag "K" "H" "V" " ")
  | LanguageKhowar => (Tag "K" "H" "W" " ")
  | LanguageKikuyu => (Tag "K" "I" "K" " ")
  | LanguageKirghiz => (Tag "K" "I" "R" " ")
  | LanguageKisii => (Tag "K" "I" "S" " ")
  | LanguageKirmanjki => (Tag "K" "I" "U" " ")
  | LanguageSouthernKiwai => (Tag "K" "J" "D" " ")
  | LanguageEasternPwoKaren => (Tag "K" "J" "P" " ")
  | LanguageKokni => (Tag "K" "K" "N" " ")
  | LanguageKalmyk => (Tag "K" "L" "M" " ")
  | LanguageKamba => (Tag "K" "M" "B" " ")
  | LanguageKumaoni => (Tag "K" "M" "N" " ")
  | LanguageKomo => (Tag "K" "M" "O" " ")
  | LanguageKomso => (Tag "K" "M" "S" " ")
  | LanguageKhorasaniTurkic => (Tag "K" "M" "Z" " ")
  | LanguageKanuri => (Tag "K" "N" "R" " ")
  | LanguageKodagu => (Tag "K" "O" "D" " ")
  | LanguageKoreanOldHangul => (Tag "K" "O" "H" " ")
  | LanguageKonkani => (Tag "K" "O" "K" " ")
  | LanguageKikongo => (Tag "K" "O" "N" " ")
  | LanguageKomi => (Tag "K" "O" "M" " ")
  | LanguageKongo => (Tag "K" "O" "N" "0")
  | LanguageKomiPermyak => (Tag "K" "O" "P" " ")
  | LanguageKorean => (Tag "K" "O" "R" " ")
  | LanguageKosraean => (Tag "K" "O" "S" " ")
  | LanguageKomiZyrian => (Tag "K" "O" "Z" " ")
  | LanguageKpelle => (Tag "K" "P" "L" " ")
  | LanguageKrio => (Tag "K" "R" "I" " ")
  | LanguageKarakalpak => (Tag "K" "R" "K" " ")
  | LanguageKarelian => (Tag "K" "R" "L" " ")
  | LanguageKaraim => (Tag "K" "R" "M" " ")
  | LanguageKaren => (Tag "K" "R" "N" " ")
  | LanguageKoorete => (Tag "K" "R" "T" " ")
  | LanguageKashmiri => (Tag "K" "S" "H" " ")
  | LanguageRipuarian => (Tag "K" "S" "H" "0")
  | LanguageKhasi => (Tag "K" "S" "I" " ")
  | LanguageKildinSami => (Tag "K" "S" "M" " ")
  | LanguageSgawKaren => (Tag "K" "S" "W" " ")
  | LanguageKuanyama => (Tag "K" "U" "A" " ")
  | LanguageKui => (Tag "K" "U" "I" " ")
  | LanguageKulvi => (Tag "K" "U" "L" " ")
  | LanguageKumyk => (Tag "K" "U" "M" " ")
  | LanguageKurdish => (Tag "K" "U" "R" " ")
  | LanguageKurukh => (Tag "K" "U" "U" " ")
  | LanguageKuy => (Tag "K" "U" "Y" " ")
  | LanguageKoryak => (Tag "K" "Y" "K" " ")
  | LanguageWesternKayah => (Tag "K" "Y" "U" " ")
  | LanguageLadin => (Tag "L" "A" "D" " ")
  | LanguageLahuli => (Tag "L" "A" "H" " ")
  | LanguageLak => (Tag "L" "A" "K" " ")
  | LanguageLambani => (Tag "L" "A" "M" " ")
  | LanguageLao => (Tag "L" "A" "O" " ")
  | LanguageLatin => (Tag "L" "A" "T" " ")
  | LanguageLaz => (Tag "L" "A" "Z" " ")
  | LanguageLCree => (Tag "L" "C" "R" " ")
  | LanguageLadakhi => (Tag "L" "D" "K" " ")
  | LanguageLezgi => (Tag "L" "E" "Z" " ")
  | LanguageLigurian => (Tag "L" "I" "J" " ")
  | LanguageLimburgish => (Tag "L" "I" "M" " ")
  | LanguageLingala => (Tag "L" "I" "N" " ")
  | LanguageLisu => (Tag "L" "I" "S" " ")
  | LanguageLampung => (Tag "L" "J" "P" " ")
  | LanguageLaki => (Tag "L" "K" "I" " ")
  | LanguageLowMari => (Tag "L" "M" "A" " ")
  | LanguageLimbu => (Tag "L" "M" "B" " ")
  | LanguageLombard => (Tag "L" "M" "O" " ")
  | LanguageLomwe => (Tag "L" "M" "W" " ")
  | LanguageLoma => (Tag "L" "O" "M" " ")
  | LanguageLuri => (Tag "L" "R" "C" " ")
  | LanguageLowerSorbian => (Tag "L" "S" "B" " ")
  | LanguageLuleSami => (Tag "L" "S" "M" " ")
  | LanguageLithuanian => (Tag "L" "T" "H" " ")
  | LanguageLuxembourgish => (Tag "L" "T" "Z" " ")
  | LanguageLubaLulua => (Tag "L" "U" "A" " ")
  | LanguageLubaKatanga => (Tag "L" "U" "B" " ")
  | LanguageGanda => (Tag "L" "U" "G" " ")
  | LanguageLuyia => (Tag "L" "U" "H" " ")
  | LanguageLuo => (Tag "L" "U" "O" " ")
  | LanguageLatvian => (Tag "L" "V" "I" " ")
  | LanguageMadura => (Tag "M" "A" "D" " ")
  | LanguageMagahi => (Tag "M" "A" "G" " ")
  | LanguageMarshallese => (Tag "M" "A" "H" " ")
  | LanguageMajang => (Tag "M" "A" "J" " ")
  | LanguageMakhuwa => (Tag "M" "A" "K" " ")
  | LanguageMalayalam => (Tag "M" "A" "L" " ")
  | LanguageMam => (Tag "M" "A" "M" " ")
  | LanguageMansi => (Tag "M" "A" "N" " ")
  | LanguageMapudungun => (Tag "M" "A" "P" " ")
  | LanguageMarathi => (Tag "M" "A" "R" " ")
  | LanguageMarwari => (Tag "M" "A" "W" " ")
  | LanguageMbundu => (Tag "M" "B" "N" " ")
  | LanguageMbo => (Tag "M" "B" "O" " ")
  | LanguageManchu => (Tag "M" "C" "H" " ")
  | LanguageMooseCree => (Tag "M" "C" "R" " ")
  | LanguageMende => (Tag "M" "D" "E" " ")
  | LanguageMandar => (Tag "M" "D" "R" " ")
  | LanguageMeen => (Tag "M" "E" "N" " ")
  | LanguageMeru => (Tag "M" "E" "R" " ")
  | LanguageMorisyen => (Tag "M" "F" "E" " ")
  | LanguageMinangkabau => (Tag "M" "I" "N" " ")
  | LanguageMizo => (Tag "M" "I" "Z" " ")
  | LanguageMacedonian => (Tag "M" "K" "D" " ")
  | LanguageMakasar => (Tag "M" "K" "R" " ")
  | LanguageKituba => (Tag "M" "K" "W" " ")
  | LanguageMale => (Tag "M" "L" "E" " ")
  | LanguageMalagasy => (Tag "M" "L" "G" " ")
  | LanguageMalinke => (Tag "M" "L" "N" " ")
  | LanguageMalayalamReformed => (Tag "M" "L" "R" " ")
  | LanguageMalay => (Tag "M" "L" "Y" " ")
  | LanguageMandinka => (Tag "M" "N" "D" " ")
  | LanguageMongolian => (Tag "M" "N" "G" " ")
  | LanguageManipuri => (Tag "M" "N" "I" " ")
  | LanguageManinka => (Tag "M" "N" "K" " ")
  | LanguageManx => (Tag "M" "N" "X" " ")
  | LanguageMohawk => (Tag "M" "O" "H" " ")
  | LanguageMoksha => (Tag "M" "O" "K" " ")
  | LanguageMoldavian => (Tag "M" "O" "L" " ")
  | LanguageMon => (Tag "M" "O" "N" " ")
  | LanguageMoroccan => (Tag "M" "O" "R" " ")
  | LanguageMossi => (Tag "M" "O" "S" " ")
  | LanguageMaori => (Tag "M" "R" "I" " ")
  | LanguageMaithili => (Tag "M" "T" "H" " ")
  | LanguageMaltese => (Tag "M" "T" "S" " ")
  | LanguageMundari => (Tag "M" "U" "N" " ")
  | LanguageMuscogee => (Tag "M" "U" "S" " ")
  | LanguageMirandese => (Tag "M" "W" "L" " ")
  | LanguageHmongDaw => (Tag "M" "W" "W" " ")
  | LanguageMayan => (Tag "M" "Y" "N" " ")
  | LanguageMazanderani => (Tag "M" "Z" "N" " ")
  | LanguageNagaAssamese => (Tag "N" "A" "G" " ")
  | LanguageNahuatl => (Tag "N" "A" "H" " ")
  | LanguageNanai => (Tag "N" "A" "N" " ")
  | LanguageNeapolitan => (Tag "N" "A" "P" " ")
  | LanguageNaskapi => (Tag "N" "A" "S" " ")
  | LanguageNauruan => (Tag "N" "A" "U" " ")
  | LanguageNavajo => (Tag "N" "A" "V" " ")
  | LanguageNCree => (Tag "N" "C" "R" " ")
  | LanguageNdebele => (Tag "N" "D" "B" " ")
  | LanguageNdau => (Tag "N" "D" "C" " ")
  | LanguageNdonga => (Tag "N" "D" "G" " ")
  | LanguageLowSaxon => (Tag "N" "D" "S" " ")
  | LanguageNepali => (Tag "N" "E" "P" " ")
  | LanguageNewari => (Tag "N" "E" "W" " ")
  | LanguageNgbaka => (Tag "N" "G" "A" " ")
  | LanguageNagari => (Tag "N" "G" "R" " ")
  | LanguageNorwayHouseCree => (Tag "N" "H" "C" " ")
  | LanguageNisi => (Tag "N" "I" "S" " ")
  | LanguageNiuean => (Tag "N" "I" "U" " ")
  | LanguageNyankole => (Tag "N" "K" "L" " ")
  | LanguageNKo => (Tag "N" "K" "O" " ")
  | LanguageDutch => (Tag "N" "L" "D" " ")
  | LanguageNimadi => (Tag "N" "O" "E" " ")
  | LanguageNogai => (Tag "N" "O" "G" " ")
  | LanguageNorwegian => (Tag "N" "O" "R" " ")
  | LanguageNovial => (Tag "N" "O" "V" " ")
  | LanguageNorthernSami => (Tag "N" "S" "M" " ")
  | LanguageNorthernSotho => (Tag "N" "S" "O" " ")
  | LanguageNorthernTai => (Tag "N" "T" "A" " ")
  | LanguageEsperanto => (Tag "N" "T" "O" " ")
  | LanguageNyamwezi => (Tag "N" "Y" "M" " ")
  | LanguageNorwegianNynorsk => (Tag "N" "Y" "N" " ")
  | LanguageMbembeTigon => (Tag "N" "Z" "A" " ")
  | LanguageOccitan => (Tag "O" "C" "I" " ")
  | LanguageOjiCree => (Tag "O" "C" "R" " ")
  | LanguageOjibway => (Tag "O" "J" "B" " ")
  | LanguageOdia => (Tag "O" "R" "I" " ")
  | LanguageOromo => (Tag "O" "R" "O" " ")
  | LanguageOssetian => (Tag "O" "S" "S" " ")
  | LanguagePalestinianAramaic => (Tag "P" "A" "A" " ")
  | LanguagePangasinan => (Tag "P" "A" "G" " ")
  | LanguagePali => (Tag "P" "A" "L" " ")
  | LanguagePampangan => (Tag "P" "A" "M" " ")
  | LanguagePunjabi => (Tag "P" "A" "N" " ")
  | LanguagePalpa => (Tag "P" "A" "P" " ")
  | LanguagePapiamentu => (Tag "P" "A" "P" "0")
  | LanguagePashto => (Tag "P" "A" "S" " ")
  | LanguagePalauan => (Tag "P" "A" "U" " ")
  | LanguageBouyei => (Tag "P" "C" "C" " ")
  | LanguagePicard => (Tag "P" "C" "D" " ")
  | LanguagePennsylvaniaGerman => (Tag "P" "D" "C" " ")
  | LanguagePolytonicGreek => (Tag "P" "G" "R" " ")
  | LanguagePhake => (Tag "P" "H" "K" " ")
  | LanguageNorfolk => (Tag "P" "I" "H" " ")
  | LanguageFilipino => (Tag "P" "I" "L" " ")
  | LanguagePalaung => (Tag "P" "L" "G" " ")
  | LanguagePolish => (Tag "P" "L" "K" " ")
  | LanguagePiemontese => (Tag "P" "M" "S" " ")
  | LanguageWesternPanjabi => (Tag "P" "N" "B" " ")
  | LanguagePocomchi => (Tag "P" "O" "H" " ")
  | LanguagePohnpeian => (Tag "P" "O" "N" " ")
  | LanguageProvencal => (Tag "P" "R" "O" " ")
  | LanguagePortuguese => (Tag "P" "T" "G" " ")
  | LanguageWesternPwoKaren => (Tag "P" "W" "O" " ")
  | LanguageChin => (Tag "Q" "I" "N" " ")
  | LanguageKiche => (Tag "Q" "U" "C" " ")
  | LanguageQuechuaBolivia => (Tag "Q" "U" "H" " ")
  | LanguageQuechua => (Tag "Q" "U" "Z" " ")
  | LanguageQuechuaEcuador => (Tag "Q" "V" "I" " ")
  | LanguageQuechuaPeru => (Tag "Q" "W" "H" " ")
  | LanguageRajasthani => (Tag "R" "A" "J" " ")
  | LanguageRarotongan => (Tag "R" "A" "R" " ")
  | LanguageRussianBuriat => (Tag "R" "B" "U" " ")
  | LanguageRCree => (Tag "R" "C" "R" " ")
  | LanguageRejang => (Tag "R" "E" "J" " ")
  | LanguageRiang => (Tag "R" "I" "A" " ")
  | LanguageTarifit => (Tag "R" "I" "F" " ")
  | LanguageRitarungo => (Tag "R" "I" "T" " ")
  | LanguageArakwal => (Tag "R" "K" "W" " ")
  | LanguageRomansh => (Tag "R" "M" "S" " ")
  | LanguageVlaxRomani => (Tag "R" "M" "Y" " ")
  | LanguageRomanian => (Tag "R" "O" "M" " ")
  | LanguageRomany => (Tag "R" "O" "Y" " ")
  | LanguageRusyn => (Tag "R" "S" "Y" " ")
  | LanguageRotuman => (Tag "R" "T" "M" " ")
  | LanguageKinyarwanda => (Tag "R" "U" "A" " ")
  | LanguageRundi => (Tag "R" "U" "N" " ")
  | LanguageAromanian => (Tag "R" "U" "P" " ")
  | LanguageRussian => (Tag "R" "U" "S" " ")
  | LanguageSadri => (Tag "S" "A" "D" " ")
  | LanguageSanskrit => (Tag "S" "A" "N" " ")
  | LanguageSasak => (Tag "S" "A" "S" " ")
  | LanguageSantali => (Tag "S" "A" "T" " ")
  | LanguageSayisi => (Tag "S" "A" "Y" " ")
  | LanguageSicilian => (Tag "S" "C" "N" " ")
  | LanguageScots => (Tag "S" "C" "O" " ")
  | LanguageSekota => (Tag "S" "E" "K" " ")
  | LanguageSelkup => (Tag "S" "E" "L" " ")
  | LanguageOldIrish => (Tag "S" "G" "A" " ")
  | LanguageSango => (Tag "S" "G" "O" " ")
  | LanguageSamogitian => (Tag "S" "G" "S" " ")
  | LanguageTachelhit => (Tag "S" "H" "I" " ")
  | LanguageShan => (Tag "S" "H" "N" " ")
  | LanguageSibe => (Tag "S" "I" "B" " ")
  | LanguageSidamo => (Tag "S" "I" "D" " ")
  | LanguageSilteGurage => (Tag "S" "I" "G" " ")
  | LanguageSkoltSami => (Tag "S" "K" "S" " ")
  | LanguageSlovak => (Tag "S" "K" "Y" " ")
  | LanguageNorthSlavey => (Tag "S" "C" "S" " ")
  | LanguageSlavey => (Tag "S" "L" "A" " ")
  | LanguageSlovenian => (Tag "S" "L" "V" " ")
  | LanguageSomali => (Tag "S" "M" "L" " ")
  | LanguageSamoan => (Tag "S" "M" "O" " ")
  | LanguageSena => (Tag "S" "N" "A" " ")
  | LanguageShona => (Tag "S" "N" "A" "0")
  | LanguageSindhi => (Tag "S" "N" "D" " ")
  | LanguageSinhala => (Tag "S" "N" "H" " ")
  | LanguageSoninke => (Tag "S" "N" "K" " ")
  | LanguageSodoGurage => (Tag "S" "O" "G" " ")
  | LanguageSonge => (Tag "S" "O" "P" " ")
  | LanguageSouthernSotho => (Tag "S" "O" "T" " ")
  | LanguageAlbanian => (Tag "S" "Q" "I" " ")
  | LanguageSerbian => (Tag "S" "R" "B" " ")
  | LanguageSardinian => (Tag "S" "R" "D" " ")
  | LanguageSaraiki => (Tag "S" "R" "K" " ")
  | LanguageSerer => (Tag "S" "R" "R" " ")
  | LanguageSouthSlavey => (Tag "S" "S" "L" " ")
  | LanguageSouthernSami => (Tag "S" "S" "M" " ")
  | LanguageSaterlandFrisian => (Tag "S" "T" "Q" " ")
  | LanguageSukuma => (Tag "S" "U" "K" " ")
  | LanguageSundanese => (Tag "S" "U" "N" " ")
  | LanguageSuri => (Tag "S" "U" "R" " ")
  | LanguageSvan => (Tag "S" "V" "A" " ")
  | LanguageSwedish => (Tag "S" "V" "E" " ")
  | LanguageSwadayaAramaic => (Tag "S" "W" "A" " ")
  | LanguageSwahili => (Tag "S" "W" "K" " ")
  | LanguageSwati => (Tag "S" "W" "Z" " ")
  | LanguageSutu => (Tag "S" "X" "T" " ")
  | LanguageUpperSaxon => (Tag "S" "X" "U" " ")
  | LanguageSylheti => (Tag "S" "Y" "L" " ")
  | LanguageSyriac => (Tag "S" "Y" "R" " ")
  | LanguageSilesian => (Tag "S" "Z" "L" " ")
  | LanguageTabasaran => (Tag "T" "A" "B" " ")
  | LanguageTajiki => (Tag "T" "A" "J" " ")
  | LanguageTamil => (Tag "T" "A" "M" " ")
  | LanguageTatar => (Tag "T" "A" "T" " ")
  | LanguageTHCree => (Tag "T" "C" "R" " ")
  | LanguageDehongDai => (Tag "T" "D" "D" " ")
  | LanguageTelugu => (Tag "T" "E" "L" " ")
  | LanguageTetum => (Tag "T" "E" "T" " ")
  | LanguageTagalog => (Tag "T" "G" "L" " ")
  | LanguageTongan => (Tag "T" "G" "N" " ")
  | LanguageTigre => (Tag "T" "G" "R" " ")
  | LanguageTigrinya => (Tag "T" "G" "Y" " ")
  | LanguageThai => (Tag "T" "H" "A" " ")
  | LanguageTahitian => (Tag "T" "H" "T" " ")
  | LanguageTibetan => (Tag "T" "I" "B" " ")
  | LanguageTiv => (Tag "T" "I" "V" " ")
  | LanguageTurkmen => (Tag "T" "K" "M" " ")
  | LanguageTamashek => (Tag "T" "M" "H" " ")
  | LanguageTemne => (Tag "T" "M" "N" " ")
  | LanguageTswana => (Tag "T" "N" "A" " ")
  | LanguageTundraNenets => (Tag "T" "N" "E" " ")
  | LanguageTonga => (Tag "T" "N" "G" " ")
  | LanguageTodo => (Tag "T" "O" "D" " ")
  | LanguageToma => (Tag "T" "O" "D" "0")
  | LanguageTokPisin => (Tag "T" "P" "I" " ")
  | LanguageTurkish => (Tag "T" "R" "K" " ")
  | LanguageTsonga => (Tag "T" "S" "G" " ")
  | LanguageTuroyoAramaic => (Tag "T" "U" "A" " ")
  | LanguageTulu => (Tag "T" "U" "M" " ")
  | LanguageTumbuka => (Tag "T" "U" "L" " ")
  | LanguageTuvin => (Tag "T" "U" "V" " ")
  | LanguageTuvalu => (Tag "T" "V" "L" " ")
  | LanguageTwi => (Tag "T" "W" "I" " ")
  | LanguageTay => (Tag "T" "Y" "Z" " ")
  | LanguageTamazight => (Tag "T" "Z" "M" " ")
  | LanguageTzotzil => (Tag "T" "Z" "O" " ")
  | LanguageUdmurt => (Tag "U" "D" "M" " ")
  | LanguageUkrainian => (Tag "U" "K" "R" " ")
  | LanguageUmbundu => (Tag "U" "M" "B" " ")
  | LanguageUrdu => (Tag "U" "R" "D" " ")
  | LanguageUpperSorbian => (Tag "U" "S" "B" " ")
  | LanguageUyghur => (Tag "U" "Y" "G" " ")
  | LanguageUzbek => (Tag "U" "Z" "B" " ")
  | LanguageVenetian => (Tag "V" "E" "C" " ")
  | LanguageVenda => (Tag "V" "E" "N" " ")
  | LanguageVietnamese => (Tag "V" "I" "T" " ")
  | LanguageVolapuk => (Tag "V" "O" "L" " ")
  | LanguageVoro => (Tag "V" "R" "O" " ")
  | LanguageWa => (Tag "W" "A" " " " ")
  | LanguageWagdi => (Tag "W" "A" "G" " ")
  | LanguageWarayWaray => (Tag "W" "A" "R" " ")
  | LanguageWestCree => (Tag "W" "C" "R" " ")
  | LanguageWelsh => (Tag "W" "E" "L" " ")
  | LanguageWalloon => (Tag "W" "L" "N" " ")
  | LanguageWolof => (Tag "W" "L" "F" " ")
  | LanguageMewati => (Tag "W" "T" "M" " ")
  | LanguageLu => (Tag "X" "B" "D" " ")
  | LanguageXhosa => (Tag "X" "H" "S" " ")
  | LanguageMinjangbal => (Tag "X" "J" "B" " ")
  | LanguageSoga => (Tag "X" "O" "G" " ")
  | LanguageKpelleLiberia => (Tag "X" "P" "E" " ")
  | LanguageSakha => (Tag "Y" "A" "K" " ")
  | LanguageYao => (Tag "Y" "A" "O" " ")
  | LanguageYapese => (Tag "Y" "A" "P" " ")
  | LanguageYoruba => (Tag "Y" "B" "A" " ")
  | LanguageYCree => (Tag "Y" "C" "R" " ")
  | LanguageYiClassic => (Tag "Y" "I" "C" " ")
  | LanguageYiModern => (Tag "Y" "I" "M" " ")
  | LanguageZealandic => (Tag "Z" "E" "A" " ")
  | LanguageStandardMorrocanTamazigh => (Tag "Z" "G" "H" " ")
  | LanguageZhuang => (Tag "Z" "H" "A" " ")
  | LanguageChinese => (Tag "Z" "H" "H" " ")
  | LanguageChinesePhonetic => (Tag "Z" "H" "P" " ")
  | LanguageChineseSimplified => (Tag "Z" "H" "S" " ")
  | LanguageChineseTraditional => (Tag "Z" "H" "T" " ")
  | LanguageZande => (Tag "Z" "N" "D" " ")
  | LanguageZulu => (Tag "Z" "U" "L" " ")
  | LanguageZazaki => (Tag "Z" "Z" "A" " ")
  | LanguageOther tag => tag
  end.

(** The position in the declaration, which the derived [Ord] compares first. *)
Definition language_rank (value : Language) : N :=
  match value with
  | LanguageAbaza => 0
  | LanguageAbkhazian => 1
  | LanguageAcholi => 2
  | LanguageAchi => 3
  | LanguageAdyghe => 4
  | LanguageAfrikaans => 5
  | LanguageAfar => 6
  | LanguageAgaw => 7
  | LanguageAiton => 8
  | LanguageAkan => 9
  | LanguageAlsatian => 10
  | LanguageAltai => 11
  | LanguageAmharic => 12
  | LanguageAngloSaxon => 13
  | LanguageAmericanistPhoneticNotation => 14
  | LanguageArabic => 15
  | LanguageAragonese => 16
  | LanguageAari => 17
  | LanguageRakhine => 18
  | LanguageAssamese => 19
  | LanguageAsturian => 20
  | LanguageAthapaskan => 21
  | LanguageAvar => 22
  | LanguageAwadhi => 23
  | LanguageAymara => 24
  | LanguageTorki => 25
  | LanguageAzerbaijani => 26
  | LanguageBadaga => 27
  | LanguageBanda => 28
  | LanguageBaghelkhandi => 29
  | LanguageBalkar => 30
  | LanguageBalinese => 31
  | LanguageBavarian => 32
  | LanguageBaule => 33
  | LanguageBatakToba => 34
  | LanguageBerber => 35
  | LanguageBench => 36
  | LanguageBibleCree => 37
  | LanguageBandjalang => 38
  | LanguageBelarussian => 39
  | LanguageBemba => 40
  | LanguageBengali => 41
  | LanguageHaryanvi => 42
  | LanguageBagri => 43
  | LanguageBulgarian => 44
  | LanguageBhili => 45
  | LanguageBhojpuri => 46
  | LanguageBikol => 47
  | LanguageBilen => 48
  | LanguageBislama => 49
  | LanguageKanauji => 50
  | LanguageBlackfoot => 51
  | LanguageBaluchi => 52
  | LanguagePaoKaren => 53
  | LanguageBalante => 54
  | LanguageBalti => 55
  | LanguageBambara => 56
  | LanguageBamileke => 57
  | LanguageBosnian => 58
  | LanguageBishnupriyaManipuri => 59
  | LanguageBreton => 60
  | LanguageBrahui => 61
  | LanguageBrajBhasha => 62
  | LanguageBurmese => 63
  | LanguageBodo => 64
  | LanguageBashkir => 65
  | LanguageBurushaski => 66
  | LanguageBeti => 67
  | LanguageBatakSimalungun => 68
  | LanguageBugis => 69
  | LanguageMedumba => 70
  | LanguageKaqchikel => 71
  | LanguageCatalan => 72
  | LanguageZamboangaChavacano => 73
  | LanguageCebuano => 74
  | LanguageChechen => 75
  | LanguageChahaGurage => 76
  | LanguageChattisgarhi => 77
  | LanguageChichewa => 78
  | LanguageChukchi => 79
  | LanguageChuukese => 80
  | LanguageChoctaw => 81
  | LanguageChipewyan => 82
  | LanguageCherokee => 83
  | LanguageChamorro => 84
  | LanguageChuvash => 85
  | LanguageCheyenne => 86
  | LanguageChiga => 87
  | LanguageComorian => 88
  | LanguageCoptic => 89
  | LanguageCornish => 90
  | LanguageCorsican => 91
  | LanguageCreoles => 92
  | LanguageCree => 93
  | LanguageCarrier => 94
  | LanguageCrimeanTatar => 95
  | LanguageKashubian => 96
  | LanguageChurchSlavonic => 97
  | LanguageCzech => 98
  | LanguageChittagonian => 99
  | LanguageSanBlasKuna => 100
  | LanguageDanish => 101
  | LanguageDargwa => 102
  | LanguageDayi => 103
  | LanguageWoodsCree => 104
  | LanguageDefault => 105
  | LanguageGerman => 106
  | LanguageDogri => 107
  | LanguageDogriMacrolanguage => 108
  | LanguageDhangu => 109
  | LanguageDivehiDeprecated => 110
  | LanguageDimli => 111
  | LanguageDivehi => 112
  | LanguageZarma => 113
  | LanguageDjambarrpuyngu => 114
  | LanguageDangme => 115
  | LanguageDan => 116
  | LanguageDinka => 117
  | LanguageDari => 118
  | LanguageDhuwal => 119
  | LanguageDungan => 120
  | LanguageDzongkha => 121
  | LanguageEbira => 122
  | LanguageEasternCree => 123
  | LanguageEdo => 124
  | LanguageEfik => 125
  | LanguageGreek => 126
  | LanguageEasternManinkakan => 127
  | LanguageEnglish => 128
  | LanguageErzya => 129
  | LanguageSpanish => 130
  | LanguageCentralYupik => 131
  | LanguageEstonian => 132
  | LanguageBasque => 133
  | LanguageEvenki => 134
  | LanguageEven => 135
  | LanguageEwe => 136
  | LanguageFrenchAntillean => 137
  | LanguageFang => 138
  | LanguagePersian => 139
  | LanguageFanti => 140
  | LanguageFinnish => 141
  | LanguageFijian => 142
  | LanguageDutchFlemish => 143
  | LanguageFefe => 144
  | LanguageForestNenets => 145
  | LanguageFon => 146
  | LanguageFaroese => 147
  | LanguageFrench => 148
  | LanguageCajunFrench => 149
  | LanguageFrisian => 150
  | LanguageFriulian => 151
  | LanguageArpitan => 152
  | LanguageFuta => 153
  | LanguageFulah => 154
  | LanguageNigerianFulfulde => 155
  | LanguageGa => 156
  | LanguageScottishGaelic => 157
  | LanguageGagauz => 158
  | LanguageGalician => 159
  | LanguageGarshuni => 160
  | LanguageGarhwali => 161
  | LanguageGeez => 162
  | LanguageGithabul => 163
  | LanguageGilyak => 164
  | LanguageKiribati => 165
  | LanguageKpelleGuinea => 166
  | LanguageGilaki => 167
  | LanguageGumuz => 168
  | LanguageGumatj => 169
  | LanguageGogo => 170
  | LanguageGondi => 171
  | LanguageGreenlandic => 172
  | LanguageGaro => 173
  | LanguageGuarani => 174
  | LanguageWayuu => 175
  | LanguageGupapuyngu => 176
  | LanguageGujarati => 177
  | LanguageGusii => 178
  | LanguageHaitian => 179
  | LanguageHalam => 180
  | LanguageHarauti => 181
  | LanguageHausa => 182
  | LanguageHawaiian => 183
  | LanguageHaya => 184
  | LanguageHazaragi => 185
  | LanguageHammerBanna => 186
  | LanguageHerero => 187
  | LanguageHiligaynon => 188
  | LanguageHindi => 189
  | LanguageHighMari => 190
  | LanguageHmong => 191
  | LanguageHiriMotu => 192
  | LanguageHindko => 193
  | LanguageHo => 194
  | LanguageHarari => 195
  | LanguageCroatian => 196
  | LanguageHungarian => 197
  | LanguageArmenian => 198
  | LanguageArmenianEast => 199
  | LanguageIban => 200
  | LanguageIbibio => 201
  | LanguageIgbo => 202
  | LanguageIjolanguages => 203
  | LanguageIdo => 204
  | LanguageInterlingue => 205
  | LanguageIlokano => 206
  | LanguageInterlingua => 207
  | LanguageIndonesian => 208
  | LanguageIngush => 209
  | LanguageInuktitut => 210
  | LanguageInupiat => 211
  | LanguageInternationalPhoneticAlphabet => 212
  | LanguageIrish => 213
  | LanguageIrishTraditional => 214
  | LanguageIcelandic => 215
  | LanguageInariSami => 216
  | LanguageItalian => 217
  | LanguageHebrew => 218
  | LanguageJamaicanCreole => 219
  | LanguageJapanese => 220
  | LanguageJavanese => 221
  | LanguageLojban => 222
  | LanguageKrymchak => 223
  | LanguageYiddish => 224
  | LanguageLadino => 225
  | LanguageJula => 226
  | LanguageKabardian => 227
  | LanguageKabyle => 228
  | LanguageKachchi => 229
  | LanguageKalenjin => 230
  | LanguageKannada => 231
  | LanguageKarachay => 232
  | LanguageGeorgian => 233
  | LanguageKazakh => 234
  | LanguageMakonde => 235
  | LanguageKabuverdianu => 236
  | LanguageKebena => 237
  | LanguageKekchi => 238
  | LanguageKhutsuriGeorgian => 239
  | LanguageKhakass => 240
  | LanguageKhantyKazim => 241
  | LanguageKhmer => 242
  | LanguageKhantyShurishkar => 243
  | LanguageKhamtiShan => 244
  | LanguageKhantyVakhi => 245
  | LanguageKhowar => 246
  | LanguageKikuyu => 247
  | LanguageKirghiz => 248
  | LanguageKisii => 249
  | LanguageKirmanjki => 250
  | LanguageSouthernKiwai => 251
  | LanguageEasternPwoKaren => 252
  | LanguageKokni => 253
  | LanguageKalmyk => 254
  | LanguageKamba => 255
  | LanguageKumaoni => 256
  | LanguageKomo => 257
  | LanguageKomso => 258
  | LanguageKhorasaniTurkic => 259
  | LanguageKanuri => 260
  | LanguageKodagu => 261
  | LanguageKoreanOldHangul => 262
  | LanguageKonkani => 263
  | LanguageKikongo => 264
  | LanguageKomi => 265
  | LanguageKongo => 266
  | LanguageKomiPermyak => 267
  | LanguageKorean => 268
  | LanguageKosraean => 269
  | LanguageKomiZyrian => 270
  | LanguageKpelle => 271
  | LanguageKrio => 272
  | LanguageKarakalpak => 273
  | LanguageKarelian => 274
  | LanguageKaraim => 275
  | LanguageKaren => 276
  | LanguageKoorete => 277
  | LanguageKashmiri => 278
  | LanguageRipuarian => 279
  | LanguageKhasi => 280
  | LanguageKildinSami => 281
  | LanguageSgawKaren => 282
  | LanguageKuanyama => 283
  | LanguageKui => 284
  | LanguageKulvi => 285
  | LanguageKumyk => 286
  | LanguageKurdish => 287
  | LanguageKurukh => 288
  | LanguageKuy => 289
  | LanguageKoryak => 290
  | LanguageWesternKayah => 291
  | LanguageLadin => 292
  | LanguageLahuli => 293
  | LanguageLak => 294
  | LanguageLambani => 295
  | LanguageLao => 296
  | LanguageLatin => 297
  | LanguageLaz => 298
  | LanguageLCree => 299
  | LanguageLadakhi => 300
  | LanguageLezgi => 301
  | LanguageLigurian => 302
  | LanguageLimburgish => 303
  | LanguageLingala => 304
  | LanguageLisu => 305
  | LanguageLampung => 306
  | LanguageLaki => 307
  | LanguageLowMari => 308
  | LanguageLimbu => 309
  | LanguageLombard => 310
  | LanguageLomwe => 311
  | LanguageLoma => 312
  | LanguageLuri => 313
  | LanguageLowerSorbian => 314
  | LanguageLuleSami => 315
  | LanguageLithuanian => 316
  | LanguageLuxembourgish => 317
  | LanguageLubaLulua => 318
  | LanguageLubaKatanga => 319
  | LanguageGanda => 320
  | LanguageLuyia => 321
  | LanguageLuo => 322
  | LanguageLatvian => 323
  | LanguageMadura => 324
  | LanguageMagahi => 325
  | LanguageMarshallese => 326
  | LanguageMajang => 327
  | LanguageMakhuwa => 328
  | LanguageMalayalam => 329
  | LanguageMam => 330
  | LanguageMansi => 331
  | LanguageMapudungun => 332
  | LanguageMarathi => 333
  | LanguageMarwari => 334
  | LanguageMbundu => 335
  | LanguageMbo => 336
  | LanguageManchu => 337
  | LanguageMooseCree => 338
  | LanguageMende => 339
  | LanguageMandar => 340
  | LanguageMeen => 341
  | LanguageMeru => 342
  | LanguageMorisyen => 343
  | LanguageMinangkabau => 344
  | LanguageMizo => 345
  | LanguageMacedonian => 346
  | LanguageMakasar => 347
  | LanguageKituba => 348
  | LanguageMale => 349
  | LanguageMalagasy => 350
  | LanguageMalinke => 351
  | LanguageMalayalamReformed => 352
  | LanguageMalay => 353
  | LanguageMandinka => 354
  | LanguageMongolian => 355
  | LanguageManipuri => 356
  | LanguageManinka => 357
  | LanguageManx => 358
  | LanguageMohawk => 359
  | LanguageMoksha => 360
  | LanguageMoldavian => 361
  | LanguageMon => 362
  | LanguageMoroccan => 363
  | LanguageMossi => 364
  | LanguageMaori => 365
  | LanguageMaithili => 366
  | LanguageMaltese => 367
  | LanguageMundari => 368
  | LanguageMuscogee => 369
  | LanguageMirandese => 370
  | LanguageHmongDaw => 371
  | LanguageMayan => 372
  | LanguageMazanderani => 373
  | LanguageNagaAssamese => 374
  | LanguageNahuatl => 375
  | LanguageNanai => 376
  | LanguageNeapolitan => 377
  | LanguageNaskapi => 378
  | LanguageNauruan => 379
  | LanguageNavajo => 380
  | LanguageNCree => 381
  | LanguageNdebele => 382
  | LanguageNdau => 383
  | LanguageNdonga => 384
  | LanguageLowSaxon => 385
  | LanguageNepali => 386
  | LanguageNewari => 387
  | LanguageNgbaka => 388
  | LanguageNagari => 389
  | LanguageNorwayHouseCree => 390
  | LanguageNisi => 391
  | LanguageNiuean => 392
  | LanguageNyankole => 393
  | LanguageNKo => 394
  | LanguageDutch => 395
  | LanguageNimadi => 396
  | LanguageNogai => 397
  | LanguageNorwegian => 398
  | LanguageNovial => 399
  | LanguageNorthernSami => 400
  | LanguageNorthernSotho => 401
  | LanguageNorthernTai => 402
  | LanguageEsperanto => 403
  | LanguageNyamwezi => 404
  | LanguageNorwegianNynorsk => 405
  | LanguageMbembeTigon => 406
  | LanguageOccitan => 407
  | LanguageOjiCree => 408
  | LanguageOjibway => 409
  | LanguageOdia => 410
  | LanguageOromo => 411
  | LanguageOssetian => 412
  | LanguagePalestinianAramaic => 413
  | LanguagePangasinan => 414
  | LanguagePali => 415
  | LanguagePampangan => 416
  | LanguagePunjabi => 417
  | LanguagePalpa => 418
  | LanguagePapiamentu => 419
  | LanguagePashto => 420
  | LanguagePalauan => 421
  | LanguageBouyei => 422
  | LanguagePicard => 423
  | LanguagePennsylvaniaGerman => 424
  | LanguagePolytonicGreek => 425
  | LanguagePhake => 426
  | LanguageNorfolk => 427
  | LanguageFilipino => 428
  | LanguagePalaung => 429
  | LanguagePolish => 430
  | LanguagePiemontese => 431
  | LanguageWesternPanjabi => 432
  | LanguagePocomchi => 433
  | LanguagePohnpeian => 434
  | LanguageProvencal => 435
  | LanguagePortuguese => 436
  | LanguageWesternPwoKaren => 437
  | LanguageChin => 438
  | LanguageKiche => 439
  | LanguageQuechuaBolivia => 440
  | LanguageQuechua => 441
  | LanguageQuechuaEcuador => 442
  | LanguageQuechuaPeru => 443
  | LanguageRajasthani => 444
  | LanguageRarotongan => 445
  | LanguageRussianBuriat => 446
  | LanguageRCree => 447
  | LanguageRejang => 448
  | LanguageRiang => 449
  | LanguageTarifit => 450
  | LanguageRitarungo => 451
  | LanguageArakwal => 452
  | LanguageRomansh => 453
  | LanguageVlaxRomani => 454
  | LanguageRomanian => 455
  | LanguageRomany => 456
  | LanguageRusyn => 457
  | LanguageRotuman => 458
  | LanguageKinyarwanda => 459
  | LanguageRundi => 460
  | LanguageAromanian => 461
  | LanguageRussian => 462
  | LanguageSadri => 463
  | LanguageSanskrit => 464
  | LanguageSasak => 465
  | LanguageSantali => 466
  | LanguageSayisi => 467
  | LanguageSicilian => 468
  | LanguageScots => 469
  | LanguageSekota => 470
  | LanguageSelkup => 471
  | LanguageOldIrish => 472
  | LanguageSango => 473
  | LanguageSamogitian => 474
  | LanguageTachelhit => 475
  | LanguageShan => 476
  | LanguageSibe => 477
  | LanguageSidamo => 478
  | LanguageSilteGurage => 479
  | LanguageSkoltSami => 480
  | LanguageSlovak => 481
  | LanguageNorthSlavey => 482
  | LanguageSlavey => 483
  | LanguageSlovenian => 484
  | LanguageSomali => 485
  | LanguageSamoan => 486
  | LanguageSena => 487
  | LanguageShona => 488
  | LanguageSindhi => 489
  | LanguageSinhala => 490
  | LanguageSoninke => 491
  | LanguageSodoGurage => 492
  | LanguageSonge => 493
  | LanguageSouthernSotho => 494
  | LanguageAlbanian => 495
  | LanguageSerbian => 496
  | LanguageSardinian => 497
  | LanguageSaraiki => 498
  | LanguageSerer => 499
  | LanguageSouthSlavey => 500
  | LanguageSouthernSami => 501
  | LanguageSaterlandFrisian => 502
  | LanguageSukuma => 503
  | LanguageSundanese => 504
  | LanguageSuri => 505
  | LanguageSvan => 506
  | LanguageSwedish => 507
  | LanguageSwadayaAramaic => 508
  | LanguageSwahili => 509
  | LanguageSwati => 510
  | LanguageSutu => 511
  | LanguageUpperSaxon => 512
  | LanguageSylheti => 513
  | LanguageSyriac => 514
  | LanguageSilesian => 515
  | LanguageTabasaran => 516
  | LanguageTajiki => 517
  | LanguageTamil => 518
  | LanguageTatar => 519
  | LanguageTHCree => 520
  | LanguageDehongDai => 521
  | LanguageTelugu => 522
  | LanguageTetum => 523
  | LanguageTagalog => 524
  | LanguageTongan => 525
  | LanguageTigre => 526
  | LanguageTigrinya => 527
  | LanguageThai => 528
  | LanguageTahitian => 529
  | LanguageTibetan => 530
  | LanguageTiv => 531
  | LanguageTurkmen => 532
  | LanguageTamashek => 533
  | LanguageTemne => 534
  | LanguageTswana => 535
  | LanguageTundraNenets => 536
  | LanguageTonga => 537
  | LanguageTodo => 538
  | LanguageToma => 539
  | LanguageTokPisin => 540
  | LanguageTurkish => 541
  | LanguageTsonga => 542
  | LanguageTuroyoAramaic => 543
  | LanguageTulu => 544
  | LanguageTumbuka => 545
  | LanguageTuvin => 546
  | LanguageTuvalu => 547
  | LanguageTwi => 548
  | LanguageTay => 549
  | LanguageTamazight => 550
  | LanguageTzotzil => 551
  | LanguageUdmurt => 552
  | LanguageUkrainian => 553
  | LanguageUmbundu => 554
  | LanguageUrdu => 555
  | LanguageUpperSorbian => 556
  | LanguageUyghur => 557
  | LanguageUzbek => 558
  | LanguageVenetian => 559
  | LanguageVenda => 560
  | LanguageVietnamese => 561
  | LanguageVolapuk => 562
  | LanguageVoro => 563
  | LanguageWa => 564
  | LanguageWagdi => 565
  | LanguageWarayWaray => 566
  | LanguageWestCree => 567
  | LanguageWelsh => 568
  | LanguageWalloon => 569
  | LanguageWolof => 570
  | LanguageMewati => 571
  | LanguageLu => 572
  | LanguageXhosa => 573
  | LanguageMinjangbal => 574
  | LanguageSoga => 575
  | LanguageKpelleLiberia => 576
  | LanguageSakha => 577
  | LanguageYao => 578
  | LanguageYapese => 579
  | LanguageYoruba => 580
  | LanguageYCree => 581
  | LanguageYiClassic => 582
  | LanguageYiModern => 583
  | LanguageZealandic => 584
  | LanguageStandardMorrocanTamazigh => 585
  | LanguageZhuang => 586
  | LanguageChinese => 587
  | LanguageChinesePhonetic => 588
  | LanguageChineseSimplified => 589
  | LanguageChineseTraditional => 590
  | LanguageZande => 591
  | LanguageZulu => 592
  | LanguageZazaki => 593
  | LanguageOther _ => 594
  end%N.

(** [Language::name]. *)
Definition language_name (value : Language) : option string :=
  match value with
  | LanguageAbaza => Some "Abaza"%string
  | LanguageAbkhazian => Some "Abkhazian"%string
  | LanguageAcholi => Some "Acholi"%string
  | LanguageAchi => Some "Achi"%string
  | LanguageAdyghe => Some "Adyghe"%string
  | LanguageAfrikaans => Some "Afrikaans"%string
  | LanguageAfar => Some "Afar"%string
  | LanguageAgaw => Some "Agaw"%string
  | LanguageAiton => Some "Aiton"%string
  | LanguageAkan => Some "Akan"%string
  | LanguageAlsatian => Some "Alsatian"%string
  | LanguageAltai => Some "Altai"%string
  | LanguageAmharic => Some "Amharic"%string
  | LanguageAngloSaxon => Some "Anglo-Saxon"%string
  | LanguageAmericanistPhoneticNotation => Some "Phonetic Transcription, Americanist"%string
  | LanguageArabic => Some "Arabic"%string
  | LanguageAragonese => Some "Aragonese"%string
  | LanguageAari => Some "Aari"%string
  | LanguageRakhine => Some "Rakhine"%string
  | LanguageAssamese => Some "Assamese"%string
  | LanguageAsturian => Some "Asturian"%string
  | LanguageAthapaskan => Some "Athapaskan"%string
  | LanguageAvar => Some "Avar"%string
  | LanguageAwadhi => Some "Awadhi"%string
  | LanguageAymara => Some "Aymara"%string
  | LanguageTorki => Some "Torki"%string
  | LanguageAzerbaijani => Some "Azerbaijani"%string
  | LanguageBadaga => Some "Badaga"%string
  | LanguageBanda => Some "Banda"%string
  | LanguageBaghelkhandi => Some "Baghelkhandi"%string
  | LanguageBalkar => Some "Balkar"%string
  | LanguageBalinese => Some "Balinese"%string
  | LanguageBavarian => Some "Bavarian"%string
  | LanguageBaule => Some "Baulé"%string
  | LanguageBatakToba => Some "Batak Toba"%string
  | LanguageBerber => Some "Berber"%string
  | LanguageBench => Some "Bench"%string
  | LanguageBibleCree => Some "Bible Cree"%string
  | LanguageBandjalang => Some "Bandjalang"%string
  | LanguageBelarussian => Some "Belarussian"%string
  | LanguageBemba => Some "Bemba"%string
  | LanguageBengali => Some "Bengali"%string
  | LanguageHaryanvi => Some "Haryanvi"%string
  | LanguageBagri => Some "Bagri"%string
  | LanguageBulgarian => Some "Bulgarian"%string
  | LanguageBhili => Some "Bhili"%string
  | LanguageBhojpuri => Some "Bhojpuri"%string
  | LanguageBikol => Some "Bikol"%string
  | LanguageBilen => Some "Bilen"%string
  | LanguageBislama => Some "Bislama"%string
  | LanguageKanauji => Some "Kanauji"%string
  | LanguageBlackfoot => Some "Blackfoot"%string
  | LanguageBaluchi => Some "Baluchi"%string
  | LanguagePaoKaren => Some "Pa’o Karen"%string
  | LanguageBalante => Some "Balante"%string
  | LanguageBalti => Some "Balti"%string
  | LanguageBambara => Some "Bambara (Bamanankan)"%string
  | LanguageBamileke => Some "Bamileke"%string
  | LanguageBosnian => Some "Bosnian"%string
  | LanguageBishnupriyaManipuri => Some "Bishnupriya Manipuri"%string
  | LanguageBreton => Some "Breton"%string
  | LanguageBrahui => Some "Brahui"%string
  | LanguageBrajBhasha => Some "Braj Bhasha"%string
  | LanguageBurmese => Some "Burmese"%string
  | LanguageBodo => Some "Bodo"%string
  | LanguageBashkir => Some "Bashkir"%string
  | LanguageBurushaski => Some "Burushaski"%string
  | LanguageBeti => Some "Beti"%string
  | LanguageBatakSimalungun => Some "Batak Simalungun"%string
  | LanguageBugis => Some "Bugis"%string
  | LanguageMedumba => Some "Medumba"%string
  | LanguageKaqchikel => Some "Kaqchikel"%string
  | LanguageCatalan => Some "Catalan"%string
  | LanguageZamboangaChavacano => Some "Zamboanga Chavacano"%string
  | LanguageCebuano => Some "Cebuano"%string
  | LanguageChechen => Some "Chechen"%string
  | LanguageChahaGurage => Some "Chaha Gurage"%string
  | LanguageChattisgarhi => Some "Chattisgarhi"%string
  | LanguageChichewa => Some "Chichewa (Chewa, Nyanja)"%string
  | LanguageChukchi => Some "Chukchi"%string
  | LanguageChuukese => Some "Chuukese"%string
  | LanguageChoctaw => Some "Choctaw"%string
  | LanguageChipewyan => Some "Chipewyan"%string
  | LanguageCherokee => Some "Cherokee"%string
  | LanguageChamorro => Some "Chamorro"%string
  | LanguageChuvash => Some "Chuvash"%string
  | LanguageCheyenne => Some "Cheyenne"%string
  | LanguageChiga => Some "Chiga"%string
  | LanguageComorian => Some "Comorian"%string
  | LanguageCoptic => Some "Coptic"%string
  | LanguageCornish => Some "Cornish"%string
  | LanguageCorsican => Some "Corsican"%string
  | LanguageCreoles => Some "Creoles"%string
  | LanguageCree => Some "Cree"%string
  | LanguageCarrier => Some "Carrier"%string
  | LanguageCrimeanTatar => Some "Crimean Tatar"%string
  | LanguageKashubian => Some "Kashubian"%string
  | LanguageChurchSlavonic => Some "Church Slavonic"%string
  | LanguageCzech => Some "Czech"%string
  | LanguageChittagonian => Some "Chittagonian"%string
  | LanguageSanBlasKuna => Some "San Blas Kuna"%string
  | LanguageDanish => Some "Danish"%string
  | LanguageDargwa => Some "Dargwa"%string
  | LanguageDayi => Some "Dayi"%string
  | LanguageWoodsCree => Some "Woods Cree"%string
  | LanguageDefault => Some "Default"%string
  | LanguageGerman => Some "German"%string
  | LanguageDogri => Some "Dogri"%string
  | LanguageDogriMacrolanguage => Some "Dogri"%string
  | LanguageDhangu => Some "Dhangu"%string
  | LanguageDivehiDeprecated => Some "Divehi (Dhivehi, Maldivian)"%string
  | LanguageDimli => Some "Dimli"%string
  | LanguageDivehi => Some "Divehi (Dhivehi, Maldivian)"%string
  | LanguageZarma => Some "Zarma"%string
  | LanguageDjambarrpuyngu => Some "Djambarrpuyngu"%string
  | LanguageDangme => Some "Dangme"%string
  | LanguageDan => Some "Dan"%string
  | LanguageDinka => Some "Dinka"%string
  | LanguageDari => Some "Dari"%string
  | LanguageDhuwal => Some "Dhuwal"%string
  | LanguageDungan => Some "Dungan"%string
  | LanguageDzongkha => Some "Dzongkha"%string
  | LanguageEbira => Some "Ebira"%string
  | LanguageEasternCree => Some "Eastern Cree"%string
  | LanguageEdo => Some "Edo"%string
  | LanguageEfik => Some "Efik"%string
  | LanguageGreek => Some "Greek"%string
  | LanguageEasternManinkakan => Some "Eastern Maninkakan"%string
  | LanguageEnglish => Some "English"%string
  | LanguageErzya => Some "Erzya"%string
  | LanguageSpanish => Some "Spanish"%string
  | LanguageCentralYupik => Some "Central Yupik"%string
  | LanguageEstonian => Some "Estonian"%string
  | LanguageBasque => Some "Basque"%string
  | LanguageEvenki => Some "Evenki"%string
  | LanguageEven => Some "Even"%string
  | LanguageEwe => Some "Ewe"%string
  | LanguageFrenchAntillean => Some "French Antillean"%string
  | LanguageFang => Some "Fang"%string
  | LanguagePersian => Some "Persian"%string
  | LanguageFanti => Some "Fanti"%string
  | LanguageFinnish => Some "Finnish"%string
  | LanguageFijian => Some "Fijian"%string
  | LanguageDutchFlemish => Some "Dutch (Flemish)"%string
  | LanguageFefe => Some "Fe’fe’"%string
  | LanguageForestNenets => Some "Forest Nenets"%string
  | LanguageFon => Some "Fon"%string
  | LanguageFaroese => Some "Faroese"%string
  | LanguageFrench => Some "French"%string
  | LanguageCajunFrench => Some "Cajun French"%string
  | LanguageFrisian => Some "Frisian"%string
  | LanguageFriulian => Some "Friulian"%string
  | LanguageArpitan => Some "Arpitan"%string
  | LanguageFuta => Some "Futa"%string
  | LanguageFulah => Some "Fulah"%string
  | LanguageNigerianFulfulde => Some "Nigerian Fulfulde"%string
  | LanguageGa => Some "Ga"%string
  | LanguageScottishGaelic => Some "Scottish Gaelic (Gaelic)"%string
  | LanguageGagauz => Some "Gagauz"%string
  | LanguageGalician => Some "Galician"%string
  | LanguageGarshuni => Some "Garshuni"%string
  | LanguageGarhwali => Some "Garhwali"%string
  | LanguageGeez => Some "Ge’ez"%string
  | LanguageGithabul => Some "Githabul"%string
  | LanguageGilyak => Some "Gilyak"%string
  | LanguageKiribati => Some "Kiribati (Gilbertese)"%string
  | LanguageKpelleGuinea => Some "Kpelle (Guinea)"%string
  | LanguageGilaki => Some "Gilaki"%string
  | LanguageGumuz => Some "Gumuz"%string
  | LanguageGumatj => Some "Gumatj"%string
  | LanguageGogo => Some "Gogo"%string
  | LanguageGondi => Some "Gondi"%string
  | LanguageGreenlandic => Some "Greenlandic"%string
  | LanguageGaro => Some "Garo"%string
  | LanguageGuarani => Some "Guarani"%string
  | LanguageWayuu => Some "Wayuu"%string
  | LanguageGupapuyngu => Some "Gupapuyngu"%string
  | LanguageGujarati => Some "Gujarati"%string
  | LanguageGusii => Some "Gusii"%string
  | LanguageHaitian => Some "Haitian (Haitian Creole)"%string
  | LanguageHalam => Some "Halam"%string
  | LanguageHarauti => Some "Harauti"%string
  | LanguageHausa => Some "Hausa"%string
  | LanguageHawaiian => Some "Hawaiian"%string
  | LanguageHaya => Some "Haya"%string
  | LanguageHazaragi => Some "Hazaragi"%string
  | LanguageHammerBanna => Some "Hammer-Banna"%string
  | LanguageHerero => Some "Herero"%string
  | LanguageHiligaynon => Some "Hiligaynon"%string
  | LanguageHindi => Some "Hindi"%string
  | LanguageHighMari => Some "High Mari"%string
  | LanguageHmong => Some "Hmong"%string
  | LanguageHiriMotu => Some "Hiri Motu"%string
  | LanguageHindko => Some "Hindko"%string
  | LanguageHo => Some "Ho"%string
  | LanguageHarari => Some "Harari"%string
  | LanguageCroatian => Some "Croatian"%string
  | LanguageHungarian => Some "Hungarian"%string
  | LanguageArmenian => Some "Armenian"%string
  | LanguageArmenianEast => Some "Armenian East"%string
  | LanguageIban => Some "Iban"%string
  | LanguageIbibio => Some "Ibibio"%string
  | LanguageIgbo => Some "Igbo"%string
  | LanguageIjolanguages => Some "Ijo languages"%string
  | LanguageIdo => Some "Ido"%string
  | LanguageInterlingue => Some "Interlingue"%string
  | LanguageIlokano => Some "Ilokano"%string
  | LanguageInterlingua => Some "Interlingua"%string
  | LanguageIndonesian => Some "Indonesian"%string
  | LanguageIngush => Some "Ingush"%string
  | LanguageInuktitut => Some "Inuktitut"%string
  | LanguageInupiat => Some "Inupiat"%string
  | LanguageInternationalPhoneticAlphabet => Some "Phonetic transcription, IPA"%string
  | LanguageIrish => Some "Irish"%string
  | LanguageIrishTraditional => Some "Irish Traditional"%string
  | LanguageIcelandic => Some "Icelandic"%string
  | LanguageInariSami => Some "Inari Sami"%string
  | LanguageItalian => Some "Italian"%string
  | LanguageHebrew => Some "Hebrew"%string
  | LanguageJamaicanCreole => Some "Jamaican Creole"%string
  | LanguageJapanese => Some "Japanese"%string
  | LanguageJavanese => Some "Javanese"%string
  | LanguageLojban => Some "Lojban"%string
  | LanguageKrymchak => Some "Krymchak"%string
  | LanguageYiddish => Some "Yiddish"%string
  | LanguageLadino => Some "Ladino"%string
  | LanguageJula => Some "Jula"%string
  | LanguageKabardian => Some "Kabardian"%string
  | LanguageKabyle => Some "Kabyle"%string
  | LanguageKachchi => Some "Kachchi"%string
  | LanguageKalenjin => Some "Kalenjin"%string
  | LanguageKannada => Some "Kannada"%string
  | LanguageKarachay => Some "Karachay"%string
  | LanguageGeorgian => Some "Georgian"%string
  | LanguageKazakh => Some "Kazakh"%string
  | LanguageMakonde => Some "Makonde"%string
  | LanguageKabuverdianu => Some "Kabuverdianu (Crioulo)"%string
  | LanguageKebena => Some "Kebena"%string
  | LanguageKekchi => Some "Kekchi"%string
  | LanguageKhutsuriGeorgian => Some "Khutsuri Georgian"%string
  | LanguageKhakass => Some "Khakass"%string
  | LanguageKhantyKazim => Some "Khanty-Kazim"%string
  | LanguageKhmer => Some "Khmer"%string
  | LanguageKhantyShurishkar => Some "Khanty-Shurishkar"%string
  | LanguageKhamtiShan => Some "Khamti Shan"%string
  | LanguageKhantyVakhi => Some "Khanty-Vakhi"%string
  | LanguageKhowar => Some "Khowar"%string
  | LanguageKikuyu => Some "Kikuyu (Gikuyu)"%string
  | LanguageKirghiz => Some "Kirghiz (Kyrgyz)"%string
  | LanguageKisii => Some "Kisii"%string
  | LanguageKirmanjki => Some "Kirmanjki"%string
  | LanguageSouthernKiwai => Some "Southern Kiwai"%string
  | LanguageEasternPwoKaren => Some "Eastern Pwo Karen"%string
  | LanguageKokni => Some "Kokni"%string
  | LanguageKalmyk => Some "Kalmyk"%string
  | LanguageKamba => Some "Kamba"%string
  | LanguageKumaoni => Some "Kumaoni"%string
  | LanguageKomo => Some "Komo"%string
  | LanguageKomso => Some "Komso"%string
  | LanguageKhorasaniTurkic => Some "Khorasani Turkic"%string
  | LanguageKanuri => Some "Kanuri"%string
  | LanguageKodagu => Some "Kodagu"%string
  | LanguageKoreanOldHangul => Some "Korean Old Hangul"%string
  | LanguageKonkani => Some "Konkani"%string
  | LanguageKikongo => Some "Kikongo"%string
  | LanguageKomi => Some "Komi"%string
  | LanguageKongo => Some "Kongo"%string
  | LanguageKomiPermyak => Some "Komi-Permyak"%string
  | LanguageKorean => Some "Korean"%string
  | LanguageKosraean => Some "Kosraean"%string
  | LanguageKomiZyrian => Some "Komi-Zyrian"%string
  | LanguageKpelle => Some "Kpelle"%string
  | LanguageKrio => Some "Krio"%string
  | LanguageKarakalpak => Some "Karakalpak"%string
  | LanguageKarelian => Some "Karelian"%string
  | LanguageKaraim => Some "Karaim"%string
  | LanguageKaren => Some "Karen"%string
  | LanguageKoorete => Some "Koorete"%string
  | LanguageKashmiri => Some "Kashmiri"%string
  | LanguageRipuarian => Some "Ripuarian"%string
  | LanguageKhasi => Some "Khasi"%string
  | LanguageKildinSami => Some "Kildin Sami"%string
  | LanguageSgawKaren => Some "S’gaw Karen"%string
  | LanguageKuanyama => Some "Kuanyama"%string
  | LanguageKui => Some "Kui"%string
  | LanguageKulvi => Some "Kulvi"%string
  | LanguageKumyk => Some "Kumyk"%string
  | LanguageKurdish => Some "Kurdish"%string
  | LanguageKurukh => Some "Kurukh"%string
  | LanguageKuy => Some "Kuy"%string
  | LanguageKoryak => Some "Koryak"%string
  | LanguageWesternKayah => Some "Western Kayah"%string
  | LanguageLadin => Some "Ladin"%string
  | LanguageLahuli => Some "Lahuli"%string
  | LanguageLak => Some "Lak"%string
  | LanguageLambani => Some "Lambani"%string
  | LanguageLao => Some "Lao"%string
  | LanguageLatin => Some "Latin"%string
  | LanguageLaz => Some "Laz"%string
  | LanguageLCree => Some "L-Cree"%string
  | LanguageLadakhi => Some "Ladakhi"%string
  | LanguageLezgi => Some "Lezgi"%string
  | LanguageLigurian => Some "Ligurian"%string
  | LanguageLimburgish => Some "Limburgish"%string
  | LanguageLingala => Some "Lingala"%string
  | LanguageLisu => Some "Lisu"%string
  | LanguageLampung => Some "Lampung"%string
  | LanguageLaki => Some "Laki"%string
  | LanguageLowMari => Some "Low Mari"%string
  | LanguageLimbu => Some "Limbu"%string
  | LanguageLombard => Some "Lombard"%string
  | LanguageLomwe => Some "Lomwe"%string
  | LanguageLoma => Some "Loma"%string
  | LanguageLuri => Some "Luri"%string
  | LanguageLowerSorbian => Some "Lower Sorbian"%string
  | LanguageLuleSami => Some "Lule Sami"%string
  | LanguageLithuanian => Some "Lithuanian"%string
  | LanguageLuxembourgish => Some "Luxembourgish"%string
  | LanguageLubaLulua => Some "Luba-Lulua"%string
  | LanguageLubaKatanga => Some "Luba-Katanga"%string
  | LanguageGanda => Some "Ganda"%string
  | LanguageLuyia => Some "Luyia"%string
  | LanguageLuo => Some "Luo"%string
  | LanguageLatvian => Some "Latvian"%string
  | LanguageMadura => Some "Madura"%string
  | LanguageMagahi => Some "Magahi"%string
  | LanguageMarshallese => Some "Marshallese"%string
  | LanguageMajang => Some "Majang"%string
  | LanguageMakhuwa => Some "Makhuwa"%string
  | LanguageMalayalam => Some "Malayalam"%string
  | LanguageMam => Some "Mam"%string
  | LanguageMansi => Some "Mansi"%string
  | LanguageMapudungun => Some "Mapudungun"%string
  | LanguageMarathi => Some "Marathi"%string
  | LanguageMarwari => Some "Marwari"%string
  | LanguageMbundu => Some "Mbundu"%string
  | LanguageMbo => Some "Mbo"%string
  | LanguageManchu => Some "Manchu"%string
  | LanguageMooseCree => Some "Moose Cree"%string
  | LanguageMende => Some "Mende"%string
  | LanguageMandar => Some "Mandar"%string
  | LanguageMeen => Some "Me’en"%string
  | LanguageMeru => Some "Meru"%string
  | LanguageMorisyen => Some "Morisyen"%string
  | LanguageMinangkabau => Some "Minangkabau"%string
  | LanguageMizo => Some "Mizo"%string
  | LanguageMacedonian => Some "Macedonian"%string
  | LanguageMakasar => Some "Makasar"%string
  | LanguageKituba => Some "Kituba"%string
  | LanguageMale => Some "Male"%string
  | LanguageMalagasy => Some "Malagasy"%string
  | LanguageMalinke => Some "Malinke"%string
  | LanguageMalayalamReformed => Some "Malayalam Reformed"%string
  | LanguageMalay => Some "Malay"%string
  | LanguageMandinka => Some "Mandinka"%string
  | LanguageMongolian => Some "Mongolian"%string
  | LanguageManipuri => Some "Manipuri"%string
  | LanguageManinka => Some "Maninka"%string
  | LanguageManx => Some "Manx"%string
  | LanguageMohawk => Some "Mohawk"%string
  | LanguageMoksha => Some "Moksha"%string
  | LanguageMoldavian => Some "Moldavian"%string
  | LanguageMon => Some "Mon"%string
  | LanguageMoroccan => Some "Moroccan"%string
  | LanguageMossi => Some "Mossi"%string
  | LanguageMaori => Some "Maori"%string
  | LanguageMaithili => Some "Maithili"%string
  | LanguageMaltese => Some "Maltese"%string
  | LanguageMundari => Some "Mundari"%string
  | LanguageMuscogee => Some "Muscogee"%string
  | LanguageMirandese => Some "Mirandese"%string
  | LanguageHmongDaw => Some "Hmong Daw"%string
  | LanguageMayan => Some "Mayan"%string
  | LanguageMazanderani => Some "Mazanderani"%string
  | LanguageNagaAssamese => Some "Naga-Assamese"%string
  | LanguageNahuatl => Some "Nahuatl"%string
  | LanguageNanai => Some "Nanai"%string
  | LanguageNeapolitan => Some "Neapolitan"%string
  | LanguageNaskapi => Some "Naskapi"%string
  | LanguageNauruan => Some "Nauruan"%string
  | LanguageNavajo => Some "Navajo"%string
  | LanguageNCree => Some "N-Cree"%string
  | LanguageNdebele => Some "Ndebele"%string
  | LanguageNdau => Some "Ndau"%string
  | LanguageNdonga => Some "Ndonga"%string
  | LanguageLowSaxon => Some "Low Saxon"%string
  | LanguageNepali => Some "Nepali"%string
  | LanguageNewari => Some "Newari"%string
  | LanguageNgbaka => Some "Ngbaka"%string
  | LanguageNagari => Some "Nagari"%string
  | LanguageNorwayHouseCree => Some "Norway House Cree"%string
  | LanguageNisi => Some "Nisi"%string
  | LanguageNiuean => Some "Niuean"%string
  | LanguageNyankole => Some "Nyankole"%string
  | LanguageNKo => Some "N’Ko"%string
  | LanguageDutch => Some "Dutch"%string
  | LanguageNimadi => Some "Nimadi"%string
  | LanguageNogai => Some "Nogai"%string
  | LanguageNorwegian => Some "Norwegian"%string
  | LanguageNovial => Some "Novial"%string
  | LanguageNorthernSami => Some "Northern Sami"%string
  | LanguageNorthernSotho => Some "Sotho, Northern"%string
  | LanguageNorthernTai => Some "Northern Tai"%string
  | LanguageEsperanto => Some "Esperanto"%string
  | LanguageNyamwezi => Some "Nyamwezi"%string
  | LanguageNorwegianNynorsk => Some "Norwegian Nynorsk (Nynorsk, Norwegian)"%string
  | LanguageMbembeTigon => Some "Mbembe Tigon"%string
  | LanguageOccitan => Some "Occitan"%string
  | LanguageOjiCree => Some "Oji-Cree"%string
  | LanguageOjibway => Some "Ojibway"%string
  | LanguageOdia => Some "Odia"%string
  | LanguageOromo => Some "Oromo"%string
  | LanguageOssetian => Some "Ossetian"%string
  | LanguagePalestinianAramaic => Some "Palestinian Aramaic"%string
  | LanguagePangasinan => Some "Pangasinan"%string
  | LanguagePali => Some "Pali"%string
  | LanguagePampangan => Some "Pampangan"%string
  | LanguagePunjabi => Some "Punjabi"%string
  | LanguagePalpa => Some "Palpa"%string
  | LanguagePapiamentu => Some "Papiamentu"%string
  | LanguagePashto => Some "Pashto"%string
  | LanguagePalauan => Some "Palauan"%string
  | LanguageBouyei => Some "Bouyei"%string
  | LanguagePicard => Some "Picard"%string
  | LanguagePennsylvaniaGerman => Some "Pennsylvania German"%string
  | LanguagePolytonicGreek => Some "Polytonic Greek"%string
  | LanguagePhake => Some "Phake"%string
  | LanguageNorfolk => Some "Norfolk"%string
  | LanguageFilipino => Some "Filipino"%string
  | LanguagePalaung => Some "Palaung"%string
  | LanguagePolish => Some "Polish"%string
  | LanguagePiemontese => Some "Piemontese"%string
  | LanguageWesternPanjabi => Some "Western Panjabi"%string
  | LanguagePocomchi => Some "Pocomchi"%string
  | LanguagePohnpeian => Some "Pohnpeian"%string
  | LanguageProvencal => Some "Provencal"%string
  | LanguagePortuguese => Some "Portuguese"%string
  | LanguageWesternPwoKaren => Some "Western Pwo Karen"%string
  | LanguageChin => Some "Chin"%string
  | LanguageKiche => Some "K’iche’"%string
  | LanguageQuechuaBolivia => Some "Quechua (Bolivia)"%string
  | LanguageQuechua => Some "Quechua"%string
  | LanguageQuechuaEcuador => Some "Quechua (Ecuador)"%string
  | LanguageQuechuaPeru => Some "Quechua (Peru)"%string
  | LanguageRajasthani => Some "Rajasthani"%string
  | LanguageRarotongan => Some "Rarotongan"%string
  | LanguageRussianBuriat => Some "Russian Buriat"%string
  | LanguageRCree => Some "R-Cree"%string
  | LanguageRejang => Some "Rejang"%string
  | LanguageRiang => Some "Riang"%string
  | LanguageTarifit => Some "Tarifit"%string
  | LanguageRitarungo => Some "Ritarungo"%string
  | LanguageArakwal => Some "Arakwal"%string
  | LanguageRomansh => Some "Romansh"%string
  | LanguageVlaxRomani => Some "Vlax Romani"%string
  | LanguageRomanian => Some "Romanian"%string
  | LanguageRomany => Some "Romany"%string
  | LanguageRusyn => Some "Rusyn"%string
  | LanguageRotuman => Some "Rotuman"%string
  | LanguageKinyarwanda => Some "Kinyarwanda"%string
  | LanguageRundi => Some "Rundi"%string
  | LanguageAromanian => Some "Aromanian"%string
  | LanguageRussian => Some "Russian"%string
  | LanguageSadri => Some "Sadri"%string
  | LanguageSanskrit => Some "Sanskrit"%string
  | LanguageSasak => Some "Sasak"%string
  | LanguageSantali => Some "Santali"%string
  | LanguageSayisi => Some "Sayisi"%string
  | LanguageSicilian => Some "Sicilian"%string
  | LanguageScots => Some "Scots"%string
  | LanguageSekota => Some "Sekota"%string
  | LanguageSelkup => Some "Selkup"%string
  | LanguageOldIrish => Some "Old Irish"%string
  | LanguageSango => Some "Sango"%string
  | LanguageSamogitian => Some "Samogitian"%string
  | LanguageTachelhit => Some "Tachelhit"%string
  | LanguageShan => Some "Shan"%string
  | LanguageSibe => Some "Sibe"%string
  | LanguageSidamo => Some "Sidamo"%string
  | LanguageSilteGurage => Some "Silte Gurage"%string
  | LanguageSkoltSami => Some "Skolt Sami"%string
  | LanguageSlovak => Some "Slovak"%string
  | LanguageNorthSlavey => Some "North Slavey"%string
  | LanguageSlavey => Some "Slavey"%string
  | LanguageSlovenian => Some "Slovenian"%string
  | LanguageSomali => Some "Somali"%string
  | LanguageSamoan => Some "Samoan"%string
  | LanguageSena => Some "Sena"%string
  | LanguageShona => Some "Shona"%string
  | LanguageSindhi => Some "Sindhi"%string
  | LanguageSinhala => Some "Sinhala (Sinhalese)"%string
  | LanguageSoninke => Some "Soninke"%string
  | LanguageSodoGurage => Some "Sodo Gurage"%string
  | LanguageSonge => Some "Songe"%string
  | LanguageSouthernSotho => Some "Sotho, Southern"%string
  | LanguageAlbanian => Some "Albanian"%string
  | LanguageSerbian => Some "Serbian"%string
  | LanguageSardinian => Some "Sardinian"%string
  | LanguageSaraiki => Some "Saraiki"%string
  | LanguageSerer => Some "Serer"%string
  | LanguageSouthSlavey => Some "South Slavey"%string
  | LanguageSouthernSami => Some "Southern Sami"%string
  | LanguageSaterlandFrisian => Some "Saterland Frisian"%string
  | LanguageSukuma => Some "Sukuma"%string
  | LanguageSundanese => Some "Sundanese"%string
  | LanguageSuri => Some "Suri"%string
  | LanguageSvan => Some "Svan"%string
  | LanguageSwedish => Some "Swedish"%string
  | LanguageSwadayaAramaic => Some "Swadaya Aramaic"%string
  | LanguageSwahili => Some "Swahili"%string
  | LanguageSwati => Some "Swati"%string
  | LanguageSutu => Some "Sutu"%string
  | LanguageUpperSaxon => Some "Upper Saxon"%string
  | LanguageSylheti => Some "Sylheti"%string
  | LanguageSyriac => Some "Syriac"%string
  | LanguageSilesian => Some "Silesian"%string
  | LanguageTabasaran => Some "Tabasaran"%string
  | LanguageTajiki => Some "Tajiki"%string
  | LanguageTamil => Some "Tamil"%string
  | LanguageTatar => Some "Tatar"%string
  | LanguageTHCree => Some "TH-Cree"%string
  | LanguageDehongDai => Some "Dehong Dai"%string
  | LanguageTelugu => Some "Telugu"%string
  | LanguageTetum => Some "Tetum"%string
  | LanguageTagalog => Some "Tagalog"%string
  | LanguageTongan => Some "Tongan"%string
  | LanguageTigre => Some "Tigre"%string
  | LanguageTigrinya => Some "Tigrinya"%string
  | LanguageThai => Some "Thai"%string
  | LanguageTahitian => Some "Tahitian"%string
  | LanguageTibetan => Some "Tibetan"%string
  | LanguageTiv => Some "Tiv"%string
  | LanguageTurkmen => Some "Turkmen"%string
  | LanguageTamashek => Some "Tamashek"%string
  | LanguageTemne => Some "Temne"%string
  | LanguageTswana => Some "Tswana"%string
  | LanguageTundraNenets => Some "Tundra Nenets"%string
  | LanguageTonga => Some "Tonga"%string
  | LanguageTodo => Some "Todo"%string
  | LanguageToma => Some "Toma"%string
  | LanguageTokPisin => Some "Tok Pisin"%string
  | LanguageTurkish => Some "Turkish"%string
  | LanguageTsonga => Some "Tsonga"%string
  | LanguageTuroyoAramaic => Some "Turoyo Aramaic"%string
  | LanguageTulu => Some "Tulu"%string
  | LanguageTumbuka => Some "Tumbuka"%string
  | LanguageTuvin => Some "Tuvin"%string
  | LanguageTuvalu => Some "Tuvalu"%string
  | LanguageTwi => Some "Twi"%string
  | LanguageTay => Some "Tày"%string
  | LanguageTamazight => Some "Tamazight"%string
  | LanguageTzotzil => Some "Tzotzil"%string
  | LanguageUdmurt => Some "Udmurt"%string
  | LanguageUkrainian => Some "Ukrainian"%string
  | LanguageUmbundu => Some "Umbundu"%string
  | LanguageUrdu => Some "Urdu"%string
  | LanguageUpperSorbian => Some "Upper Sorbian"%string
  | LanguageUyghur => Some "Uyghur"%string
  | LanguageUzbek => Some "Uzbek"%string
  | LanguageVenetian => Some "Venetian"%string
  | LanguageVenda => Some "Venda"%string
  | LanguageVietnamese => Some "Vietnamese"%string
  | LanguageVolapuk => Some "Volapük"%string
  | LanguageVoro => Some "Võro"%string
  | LanguageWa => Some "Wa"%string
  | LanguageWagdi => Some "Wagdi"%string
  | LanguageWarayWaray => Some "Waray-Waray"%string
  | LanguageWestCree => Some "West-Cree"%string
  | LanguageWelsh => Some "Welsh"%string
  | LanguageWalloon => Some "Walloon"%string
  | LanguageWolof => Some "Wolof"%string
  | LanguageMewati => Some "Mewati"%string
  | LanguageLu => Some "Lü"%string
  | LanguageXhosa => Some "Xhosa"%string
  | LanguageMinjangbal => Some "Minjangbal"%string
  | LanguageSoga => Some "Soga"%string
  | LanguageKpelleLiberia => Some "Kpelle (Liberia)"%string
  | LanguageSakha => Some "Sakha"%string
  | LanguageYao => Some "Yao"%string
  | LanguageYapese => Some "Yapese"%string
  | LanguageYoruba => Some "Yoruba"%string
  | LanguageYCree => Some "Y-Cree"%string
  | LanguageYiClassic => Some "Yi Classic"%string
  | LanguageYiModern => Some "Yi Modern"%string
  | LanguageZealandic => Some "Zealandic"%string
  | LanguageStandardMorrocanTamazigh => Some "Standard Morrocan Tamazigh"%string
  | LanguageZhuang => Some "Zhuang"%string
  | LanguageChinese => Some "Chinese, Hong Kong SAR"%string
  | LanguageChinesePhonetic => Some "Chinese Phonetic"%string
  | LanguageChineseSimplified => Some "Chinese Simplified"%string
  | LanguageChineseTraditional => Some "Chinese Traditional"%string
  | LanguageZande => Some "Zande"%string
  | LanguageZulu => Some "Zulu"%string
  | LanguageZazaki => Some "Zazaki"%string
  | LanguageOther _ => None
  end.

(** The literal that [Language::codes] splits. *)
Definition language_codes_literal (value : Language) : string :=
  match value with
  | LanguageAbaza => "abq"%string
  | LanguageAbkhazian => "abk"%string
  | LanguageAcholi => "ach"%string
  | LanguageAchi => "acr"%string
  | LanguageAdyghe => "ady"%string
  | LanguageAfrikaans => "afr"%string
  | LanguageAfar => "aar"%string
  | LanguageAgaw => "ahg"%string
  | LanguageAiton => "aio"%string
  | LanguageAkan => "aka"%string
  | LanguageAlsatian => "gsw"%string
  | LanguageAltai => "atv, alt"%string
  | LanguageAmharic => "amh"%string
  | LanguageAngloSaxon => "ang"%string
  | LanguageAmericanistPhoneticNotation => ""%string
  | LanguageArabic => "ara"%string
  | LanguageAragonese => "arg"%string
  | LanguageAari => "aiw"%string
  | LanguageRakhine => "mhv, rmz, rki"%string
  | LanguageAssamese => "asm"%string
  | LanguageAsturian => "ast"%string
  | LanguageAthapaskan => "apk, apj, apl, apm, apw, nav, bea, sek, bcr, caf, crx, clc, gwi, haa, chp, dgr, scs, xsl, srs, ing, hoi, koy, hup, ktw, mvb, wlk, coq, ctc, gce, tol, tuu, kkz, tgx, tht, aht, tfn, taa, tau, tcb, kuu, tce, ttm, txc"%string
  | LanguageAvar => "ava"%string
  | LanguageAwadhi => "awa"%string
  | LanguageAymara => "aym"%string
  | LanguageTorki => "azb"%string
  | LanguageAzerbaijani => "aze"%string
  | LanguageBadaga => "bfq"%string
  | LanguageBanda => "bad"%string
  | LanguageBaghelkhandi => "bfy"%string
  | LanguageBalkar => "krc"%string
  | LanguageBalinese => "ban"%string
  | LanguageBavarian => "bar"%string
  | LanguageBaule => "bci"%string
  | LanguageBatakToba => "bbc"%string
  | LanguageBerber => ""%string
  | LanguageBench => "bcq"%string
  | LanguageBibleCree => ""%string
  | LanguageBandjalang => "bdy"%string
  | LanguageBelarussian => "bel"%string
  | LanguageBemba => "bem"%string
  | LanguageBengali => "ben"%string
  | LanguageHaryanvi => "bgc"%string
  | LanguageBagri => "bgq"%string
  | LanguageBulgarian => "bul"%string
  | LanguageBhili => "bhi, bhb"%string
  | LanguageBhojpuri => "bho"%string
  | LanguageBikol => "bik, bhk, bcl, bto, cts, bln"%string
  | LanguageBilen => "byn"%string
  | LanguageBislama => "bis"%string
  | LanguageKanauji => "bjj"%string
  | LanguageBlackfoot => "bla"%string
  | LanguageBaluchi => "bal"%string
  | LanguagePaoKaren => "blk"%string
  | LanguageBalante => "bjt, ble"%string
  | LanguageBalti => "bft"%string
  | LanguageBambara => "bam"%string
  | LanguageBamileke => ""%string
  | LanguageBosnian => "bos"%string
  | LanguageBishnupriyaManipuri => "bpy"%string
  | LanguageBreton => "bre"%string
  | LanguageBrahui => "brh"%string
  | LanguageBrajBhasha => "bra"%string
  | LanguageBurmese => "mya"%string
  | LanguageBodo => "brx"%string
  | LanguageBashkir => "bak"%string
  | LanguageBurushaski => "bsk"%string
  | LanguageBeti => "btb"%string
  | LanguageBatakSimalungun => "bts"%string
  | LanguageBugis => "bug"%string
  | LanguageMedumba => "byv"%string
  | LanguageKaqchikel => "cak"%string
  | LanguageCatalan => "cat"%string
  | LanguageZamboangaChavacano => "cbk"%string
  | LanguageCebuano => "ceb"%string
  | LanguageChechen => "che"%string
  | LanguageChahaGurage => "sgw"%string
  | LanguageChattisgarhi => "hne"%string
  | LanguageChichewa => "nya"%string
  | LanguageChukchi => "ckt"%string
  | LanguageChuukese => "chk"%string
  | LanguageChoctaw => "cho"%string
  | LanguageChipewyan => "chp"%string
  | LanguageCherokee => "chr"%string
  | LanguageChamorro => "cha"%string
  | LanguageChuvash => "chv"%string
  | LanguageCheyenne => "chy"%string
  | LanguageChiga => "cgg"%string
  | LanguageComorian => "swb, wlc, wni, zdj"%string
  | LanguageCoptic => "cop"%string
  | LanguageCornish => "cor"%string
  | LanguageCorsican => "cos"%string
  | LanguageCreoles => "cpp"%string
  | LanguageCree => "cre"%string
  | LanguageCarrier => "crx, caf"%string
  | LanguageCrimeanTatar => "crh"%string
  | LanguageKashubian => "csb"%string
  | LanguageChurchSlavonic => "chu"%string
  | LanguageCzech => "ces"%string
  | LanguageChittagonian => "ctg"%string
  | LanguageSanBlasKuna => "cuk"%string
  | LanguageDanish => "dan"%string
  | LanguageDargwa => "dar"%string
  | LanguageDayi => "dax"%string
  | LanguageWoodsCree => "cwd"%string
  | LanguageDefault => ""%string
  | LanguageGerman => "deu"%string
  | LanguageDogri => "dgo"%string
  | LanguageDogriMacrolanguage => "doi"%string
  | LanguageDhangu => "dhg"%string
  | LanguageDivehiDeprecated => "div"%string
  | LanguageDimli => "diq"%string
  | LanguageDivehi => "div"%string
  | LanguageZarma => "dje"%string
  | LanguageDjambarrpuyngu => "djr"%string
  | LanguageDangme => "ada"%string
  | LanguageDan => "dnj"%string
  | LanguageDinka => "din"%string
  | LanguageDari => "prs"%string
  | LanguageDhuwal => "duj"%string
  | LanguageDungan => "dng"%string
  | LanguageDzongkha => "dzo"%string
  | LanguageEbira => "igb"%string
  | LanguageEasternCree => "crj, crl"%string
  | LanguageEdo => "bin"%string
  | LanguageEfik => "efi"%string
  | LanguageGreek => "ell"%string
  | LanguageEasternManinkakan => "emk"%string
  | LanguageEnglish => "eng"%string
  | LanguageErzya => "myv"%string
  | LanguageSpanish => "spa"%string
  | LanguageCentralYupik => "esu"%string
  | LanguageEstonian => "est"%string
  | LanguageBasque => "eus"%string
  | LanguageEvenki => "evn"%string
  | LanguageEven => "eve"%string
  | LanguageEwe => "ewe"%string
  | LanguageFrenchAntillean => "acf"%string
  | LanguageFang => "fan"%string
  | LanguagePersian => "fas"%string
  | LanguageFanti => "fat"%string
  | LanguageFinnish => "fin"%string
  | LanguageFijian => "fij"%string
  | LanguageDutchFlemish => "vls"%string
  | LanguageFefe => "fmp"%string
  | LanguageForestNenets => "enf"%string
  | LanguageFon => "fon"%string
  | LanguageFaroese => "fao"%string
  | LanguageFrench => "fra"%string
  | LanguageCajunFrench => "frc"%string
  | LanguageFrisian => "fry"%string
  | LanguageFriulian => "fur"%string
  | LanguageArpitan => "frp"%string
  | LanguageFuta => "fuf"%string
  | LanguageFulah => "ful"%string
  | LanguageNigerianFulfulde => "fuv"%string
  | LanguageGa => "gaa"%string
  | LanguageScottishGaelic => "gla"%string
  | LanguageGagauz => "gag"%string
  | LanguageGalician => "glg"%string
  | LanguageGarshuni => ""%string
  | LanguageGarhwali => "gbm"%string
  | LanguageGeez => "gez"%string
  | LanguageGithabul => "gih"%string
  | LanguageGilyak => "niv"%string
  | LanguageKiribati => "gil"%string
  | LanguageKpelleGuinea => "gkp"%string
  | LanguageGilaki => "glk"%string
  | LanguageGumuz => "guk"%string
  | LanguageGumatj => "gnn"%string
  | LanguageGogo => "gog"%string
  | LanguageGondi => "gon"%string
  | LanguageGreenlandic => "kal"%string
  | LanguageGaro => "grt"%string
  | LanguageGuarani => "grn"%string
  | LanguageWayuu => "guc"%string
  | LanguageGupapuyngu => "guf"%string
  | LanguageGujarati => "guj"%string
  | LanguageGusii => "guz"%string
  | LanguageHaitian => "hat"%string
  | LanguageHalam => "flm"%string
  | LanguageHarauti => "hoj"%string
  | LanguageHausa => "hau"%string
  | LanguageHawaiian => "haw"%string
  | LanguageHaya => "hay"%string
  | LanguageHazaragi => "haz"%string
  | LanguageHammerBanna => "amf"%string
  | LanguageHerero => "her"%string
  | LanguageHiligaynon => "hil"%string
  | LanguageHindi => "hin"%string
  | LanguageHighMari => "mrj"%string
  | LanguageHmong => "hmn"%string
  | LanguageHiriMotu => "hmo"%string
  | LanguageHindko => "hno, hnd"%string
  | LanguageHo => "hoc"%string
  | LanguageHarari => "har"%string
  | LanguageCroatian => "hrv"%string
  | LanguageHungarian => "hun"%string
  | LanguageArmenian => "hye"%string
  | LanguageArmenianEast => "hye"%string
  | LanguageIban => "iba"%string
  | LanguageIbibio => "ibb"%string
  | LanguageIgbo => "ibo"%string
  | LanguageIjolanguages => "ijc"%string
  | LanguageIdo => "ido"%string
  | LanguageInterlingue => "ile"%string
  | LanguageIlokano => "ilo"%string
  | LanguageInterlingua => "ina"%string
  | LanguageIndonesian => "ind"%string
  | LanguageIngush => "inh"%string
  | LanguageInuktitut => "iku"%string
  | LanguageInupiat => "ipk"%string
  | LanguageInternationalPhoneticAlphabet => ""%string
  | LanguageIrish => "gle"%string
  | LanguageIrishTraditional => "gle"%string
  | LanguageIcelandic => "isl"%string
  | LanguageInariSami => "smn"%string
  | LanguageItalian => "ita"%string
  | LanguageHebrew => "heb"%string
  | LanguageJamaicanCreole => "jam"%string
  | LanguageJapanese => "jpn"%string
  | LanguageJavanese => "jav"%string
  | LanguageLojban => "jbo"%string
  | LanguageKrymchak => "jct"%string
  | LanguageYiddish => "yid"%string
  | LanguageLadino => "lad"%string
  | LanguageJula => "dyu"%string
  | LanguageKabardian => "kbd"%string
  | LanguageKabyle => "kab"%string
  | LanguageKachchi => "kfr"%string
  | LanguageKalenjin => "kln"%string
  | LanguageKannada => "kan"%string
  | LanguageKarachay => "krc"%string
  | LanguageGeorgian => "kat"%string
  | LanguageKazakh => "kaz"%string
  | LanguageMakonde => "kde"%string
  | LanguageKabuverdianu => "kea"%string
  | LanguageKebena => "ktb"%string
  | LanguageKekchi => "kek"%string
  | LanguageKhutsuriGeorgian => "kat"%string
  | LanguageKhakass => "kjh"%string
  | LanguageKhantyKazim => "kca"%string
  | LanguageKhmer => "khm"%string
  | LanguageKhantyShurishkar => "kca"%string
  | LanguageKhamtiShan => "kht"%string
  | LanguageKhantyVakhi => "kca"%string
  | LanguageKhowar => "khw"%string
  | LanguageKikuyu => "kik"%string
  | LanguageKirghiz => "kir"%string
  | LanguageKisii => "kqs, kss"%string
  | LanguageKirmanjki => "kiu"%string
  | LanguageSouthernKiwai => "kjd"%string
  | LanguageEasternPwoKaren => "kjp"%string
  | LanguageKokni => "kex"%string
  | LanguageKalmyk => "xal"%string
  | LanguageKamba => "kam"%string
  | LanguageKumaoni => "kfy"%string
  | LanguageKomo => "kmw"%string
  | LanguageKomso => "kxc"%string
  | LanguageKhorasaniTurkic => "kmz"%string
  | LanguageKanuri => "kau"%string
  | LanguageKodagu => "kfa"%string
  | LanguageKoreanOldHangul => "okm"%string
  | LanguageKonkani => "kok"%string
  | LanguageKikongo => "ktu"%string
  | LanguageKomi => "kom"%string
  | LanguageKongo => "kon"%string
  | LanguageKomiPermyak => "koi"%string
  | LanguageKorean => "kor"%string
  | LanguageKosraean => "kos"%string
  | LanguageKomiZyrian => "kpv"%string
  | LanguageKpelle => "kpe"%string
  | LanguageKrio => "kri"%string
  | LanguageKarakalpak => "kaa"%string
  | LanguageKarelian => "krl"%string
  | LanguageKaraim => "kdr"%string
  | LanguageKaren => "kar"%string
  | LanguageKoorete => "kqy"%string
  | LanguageKashmiri => "kas"%string
  | LanguageRipuarian => "ksh"%string
  | LanguageKhasi => "kha"%string
  | LanguageKildinSami => "sjd"%string
  | LanguageSgawKaren => "ksw"%string
  | LanguageKuanyama => "kua"%string
  | LanguageKui => "kxu"%string
  | LanguageKulvi => "kfx"%string
  | LanguageKumyk => "kum"%string
  | LanguageKurdish => "kur"%string
  | LanguageKurukh => "kru"%string
  | LanguageKuy => "kdt"%string
  | LanguageKoryak => "kpy"%string
  | LanguageWesternKayah => "kyu"%string
  | LanguageLadin => "lld"%string
  | LanguageLahuli => "bfu"%string
  | LanguageLak => "lbe"%string
  | LanguageLambani => "lmn"%string
  | LanguageLao => "lao"%string
  | LanguageLatin => "lat"%string
  | LanguageLaz => "lzz"%string
  | LanguageLCree => "crm"%string
  | LanguageLadakhi => "lbj"%string
  | LanguageLezgi => "lez"%string
  | LanguageLigurian => "lij"%string
  | LanguageLimburgish => "lim"%string
  | LanguageLingala => "lin"%string
  | LanguageLisu => "lis"%string
  | LanguageLampung => "ljp"%string
  | LanguageLaki => "lki"%string
  | LanguageLowMari => "mhr"%string
  | LanguageLimbu => "lif"%string
  | LanguageLombard => "lmo"%string
  | LanguageLomwe => "ngl"%string
  | LanguageLoma => "lom"%string
  | LanguageLuri => "lrc, luz, bqi, zum"%string
  | LanguageLowerSorbian => "dsb"%string
  | LanguageLuleSami => "smj"%string
  | LanguageLithuanian => "lit"%string
  | LanguageLuxembourgish => "ltz"%string
  | LanguageLubaLulua => "lua"%string
  | LanguageLubaKatanga => "lub"%string
  | LanguageGanda => "lug"%string
  | LanguageLuyia => "luy"%string
  | LanguageLuo => "luo"%string
  | LanguageLatvian => "lav"%string
  | LanguageMadura => "mad"%string
  | LanguageMagahi => "mag"%string
  | LanguageMarshallese => "mah"%string
  | LanguageMajang => "mpe"%string
  | LanguageMakhuwa => "vmw"%string
  | LanguageMalayalam => "mal"%string
  | LanguageMam => "mam"%string
  | LanguageMansi => "mns"%string
  | LanguageMapudungun => "arn"%string
  | LanguageMarathi => "mar"%string
  | LanguageMarwari => "mwr, dhd, rwr, mve, wry, mtr, swv"%string
  | LanguageMbundu => "kmb"%string
  | LanguageMbo => "mbo"%string
  | LanguageManchu => "mnc"%string
  | LanguageMooseCree => "crm"%string
  | LanguageMende => "men"%string
  | LanguageMandar => "mdr"%string
  | LanguageMeen => "mym"%string
  | LanguageMeru => "mer"%string
  | LanguageMorisyen => "mfe"%string
  | LanguageMinangkabau => "min"%string
  | LanguageMizo => "lus"%string
  | LanguageMacedonian => "mkd"%string
  | LanguageMakasar => "mak"%string
  | LanguageKituba => "mkw"%string
  | LanguageMale => "mdy"%string
  | LanguageMalagasy => "mlg"%string
  | LanguageMalinke => "mlq"%string
  | LanguageMalayalamReformed => "mal"%string
  | LanguageMalay => "msa"%string
  | LanguageMandinka => "mnk"%string
  | LanguageMongolian => "mon"%string
  | LanguageManipuri => "mni"%string
  | LanguageManinka => "man, mnk, myq, mku, msc, emk, mwk, mlq"%string
  | LanguageManx => "glv"%string
  | LanguageMohawk => "moh"%string
  | LanguageMoksha => "mdf"%string
  | LanguageMoldavian => "mol"%string
  | LanguageMon => "mnw"%string
  | LanguageMoroccan => ""%string
  | LanguageMossi => "mos"%string
  | LanguageMaori => "mri"%string
  | LanguageMaithili => "mai"%string
  | LanguageMaltese => "mlt"%string
  | LanguageMundari => "unr"%string
  | LanguageMuscogee => "mus"%string
  | LanguageMirandese => "mwl"%string
  | LanguageHmongDaw => "mww"%string
  | LanguageMayan => "myn"%string
  | LanguageMazanderani => "mzn"%string
  | LanguageNagaAssamese => "nag"%string
  | LanguageNahuatl => "nah"%string
  | LanguageNanai => "gld"%string
  | LanguageNeapolitan => "nap"%string
  | LanguageNaskapi => "nsk"%string
  | LanguageNauruan => "nau"%string
  | LanguageNavajo => "nav"%string
  | LanguageNCree => "csw"%string
  | LanguageNdebele => "nbl, nde"%string
  | LanguageNdau => "ndc"%string
  | LanguageNdonga => "ndo"%string
  | LanguageLowSaxon => "nds"%string
  | LanguageNepali => "nep"%string
  | LanguageNewari => "new"%string
  | LanguageNgbaka => "nga"%string
  | LanguageNagari => ""%string
  | LanguageNorwayHouseCree => "csw"%string
  | LanguageNisi => "dap"%string
  | LanguageNiuean => "niu"%string
  | LanguageNyankole => "nyn"%string
  | LanguageNKo => "nqo"%string
  | LanguageDutch => "nld"%string
  | LanguageNimadi => "noe"%string
  | LanguageNogai => "nog"%string
  | LanguageNorwegian => "nob"%string
  | LanguageNovial => "nov"%string
  | LanguageNorthernSami => "sme"%string
  | LanguageNorthernSotho => "nso"%string
  | LanguageNorthernTai => "nod"%string
  | LanguageEsperanto => "epo"%string
  | LanguageNyamwezi => "nym"%string
  | LanguageNorwegianNynorsk => "nno"%string
  | LanguageMbembeTigon => "nza"%string
  | LanguageOccitan => "oci"%string
  | LanguageOjiCree => "ojs"%string
  | LanguageOjibway => "oji"%string
  | LanguageOdia => "ori"%string
  | LanguageOromo => "orm"%string
  | LanguageOssetian => "oss"%string
  | LanguagePalestinianAramaic => "sam"%string
  | LanguagePangasinan => "pag"%string
  | LanguagePali => "pli"%string
  | LanguagePampangan => "pam"%string
  | LanguagePunjabi => "pan"%string
  | LanguagePalpa => "plp"%string
  | LanguagePapiamentu => "pap"%string
  | LanguagePashto => "pus"%string
  | LanguagePalauan => "pau"%string
  | LanguageBouyei => "pcc"%string
  | LanguagePicard => "pcd"%string
  | LanguagePennsylvaniaGerman => "pdc"%string
  | LanguagePolytonicGreek => "ell"%string
  | LanguagePhake => "phk"%string
  | LanguageNorfolk => "pih"%string
  | LanguageFilipino => "fil"%string
  | LanguagePalaung => "pce, rbb, pll"%string
  | LanguagePolish => "pol"%string
  | LanguagePiemontese => "pms"%string
  | LanguageWesternPanjabi => "pnb"%string
  | LanguagePocomchi => "poh"%string
  | LanguagePohnpeian => "pon"%string
  | LanguageProvencal => "pro"%string
  | LanguagePortuguese => "por"%string
  | LanguageWesternPwoKaren => "pwo"%string
  | LanguageChin => "bgr, cnh, cnw, czt, sez, tcp, csy, ctd, flm, pck, tcz, zom, cmr, dao, hlt, cka, cnk, mrh, mwg, cbl, cnb, csh"%string
  | LanguageKiche => "quc"%string
  | LanguageQuechuaBolivia => "quh"%string
  | LanguageQuechua => "quz"%string
  | LanguageQuechuaEcuador => "qvi"%string
  | LanguageQuechuaPeru => "qwh"%string
  | LanguageRajasthani => "raj"%string
  | LanguageRarotongan => "rar"%string
  | LanguageRussianBuriat => "bxr"%string
  | LanguageRCree => "atj"%string
  | LanguageRejang => "rej"%string
  | LanguageRiang => "ria"%string
  | LanguageTarifit => "rif"%string
  | LanguageRitarungo => "rit"%string
  | LanguageArakwal => "rkw"%string
  | LanguageRomansh => "roh"%string
  | LanguageVlaxRomani => "rmy"%string
  | LanguageRomanian => "ron"%string
  | LanguageRomany => "rom"%string
  | LanguageRusyn => "rue"%string
  | LanguageRotuman => "rtm"%string
  | LanguageKinyarwanda => "kin"%string
  | LanguageRundi => "run"%string
  | LanguageAromanian => "rup"%string
  | LanguageRussian => "rus"%string
  | LanguageSadri => "sck"%string
  | LanguageSanskrit => "san"%string
  | LanguageSasak => "sas"%string
  | LanguageSantali => "sat"%string
  | LanguageSayisi => "chp"%string
  | LanguageSicilian => "scn"%string
  | LanguageScots => "sco"%string
  | LanguageSekota => "xan"%string
  | LanguageSelkup => "sel"%string
  | LanguageOldIrish => "sga"%string
  | LanguageSango => "sag"%string
  | LanguageSamogitian => "sgs"%string
  | LanguageTachelhit => "shi"%string
  | LanguageShan => "shn"%string
  | LanguageSibe => "sjo"%string
  | LanguageSidamo => "sid"%string
  | LanguageSilteGurage => "xst"%string
  | LanguageSkoltSami => "sms"%string
  | LanguageSlovak => "slk"%string
  | LanguageNorthSlavey => "scs"%string
  | LanguageSlavey => "scs, xsl"%string
  | LanguageSlovenian => "slv"%string
  | LanguageSomali => "som"%string
  | LanguageSamoan => "smo"%string
  | LanguageSena => "seh"%string
  | LanguageShona => "sna"%string
  | LanguageSindhi => "snd"%string
  | LanguageSinhala => "sin"%string
  | LanguageSoninke => "snk"%string
  | LanguageSodoGurage => "gru"%string
  | LanguageSonge => "sop"%string
  | LanguageSouthernSotho => "sot"%string
  | LanguageAlbanian => "sqi"%string
  | LanguageSerbian => "srp"%string
  | LanguageSardinian => "srd"%string
  | LanguageSaraiki => "skr"%string
  | LanguageSerer => "srr"%string
  | LanguageSouthSlavey => "xsl"%string
  | LanguageSouthernSami => "sma"%string
  | LanguageSaterlandFrisian => "stq"%string
  | LanguageSukuma => "suk"%string
  | LanguageSundanese => "sun"%string
  | LanguageSuri => "suq"%string
  | LanguageSvan => "sva"%string
  | LanguageSwedish => "swe"%string
  | LanguageSwadayaAramaic => "aii"%string
  | LanguageSwahili => "swa"%string
  | LanguageSwati => "ssw"%string
  | LanguageSutu => "ngo"%string
  | LanguageUpperSaxon => "sxu"%string
  | LanguageSylheti => "syl"%string
  | LanguageSyriac => "syr"%string
  | LanguageSilesian => "szl"%string
  | LanguageTabasaran => "tab"%string
  | LanguageTajiki => "tgk"%string
  | LanguageTamil => "tam"%string
  | LanguageTatar => "tat"%string
  | LanguageTHCree => "cwd"%string
  | LanguageDehongDai => "tdd"%string
  | LanguageTelugu => "tel"%string
  | LanguageTetum => "tet"%string
  | LanguageTagalog => "tgl"%string
  | LanguageTongan => "ton"%string
  | LanguageTigre => "tig"%string
  | LanguageTigrinya => "tir"%string
  | LanguageThai => "tha"%string
  | LanguageTahitian => "tah"%string
  | LanguageTibetan => "bod"%string
  | LanguageTiv => "tiv"%string
  | LanguageTurkmen => "tuk"%string
  | LanguageTamashek => "tmh"%string
  | LanguageTemne => "tem"%string
  | LanguageTswana => "tsn"%string
  | LanguageTundraNenets => "enh"%string
  | LanguageTonga => "toi"%string
  | LanguageTodo => "xal"%string
  | LanguageToma => "tod"%string
  | LanguageTokPisin => "tpi"%string
  | LanguageTurkish => "tur"%string
  | LanguageTsonga => "tso"%string
  | LanguageTuroyoAramaic => "tru"%string
  | LanguageTulu => "tum"%string
  | LanguageTumbuka => "tcy"%string
  | LanguageTuvin => "tyv"%string
  | LanguageTuvalu => "tvl"%string
  | LanguageTwi => "aka"%string
  | LanguageTay => "tyz"%string
  | LanguageTamazight => "tzm"%string
  | LanguageTzotzil => "tzo"%string
  | LanguageUdmurt => "udm"%string
  | LanguageUkrainian => "ukr"%string
  | LanguageUmbundu => "umb"%string
  | LanguageUrdu => "urd"%string
  | LanguageUpperSorbian => "hsb"%string
  | LanguageUyghur => "uig"%string
  | LanguageUzbek => "uzb"%string
  | LanguageVenetian => "vec"%string
  | LanguageVenda => "ven"%string
  | LanguageVietnamese => "vie"%string
  | LanguageVolapuk => "vol"%string
  | LanguageVoro => "vro"%string
  | LanguageWa => "wbm"%string
  | LanguageWagdi => "wbr"%string
  | LanguageWarayWaray => "war"%string
  | LanguageWestCree => "crk"%string
  | LanguageWelsh => "cym"%string
  | LanguageWalloon => "wln"%string
  | LanguageWolof => "wol"%string
  | LanguageMewati => "wtm"%string
  | LanguageLu => "khb"%string
  | LanguageXhosa => "xho"%string
  | LanguageMinjangbal => "xjb"%string
  | LanguageSoga => "xog"%string
  | LanguageKpelleLiberia => "xpe"%string
  | LanguageSakha => "sah"%string
  | LanguageYao => "yao"%string
  | LanguageYapese => "yap"%string
  | LanguageYoruba => "yor"%string
  | LanguageYCree => "cre"%string
  | LanguageYiClassic => ""%string
  | LanguageYiModern => "iii"%string
  | LanguageZealandic => "zea"%string
  | LanguageStandardMorrocanTamazigh => "zgh"%string
  | LanguageZhuang => "zha"%string
  | LanguageChinese => "zho"%string
  | LanguageChinesePhonetic => "zho"%string
  | LanguageChineseSimplified => "zho"%string
  | LanguageChineseTraditional => "zho"%string
  | LanguageZande => "zne"%string
  | LanguageZulu => "zul"%string
  | LanguageZazaki => "zza"%string
  | LanguageOther _ => ""%string
  end.
