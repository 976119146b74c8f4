(** Generated by tools/gen_tags.py from src/layout/feature.rs:112-354.  Do not edit.

    The enumeration [Feature], its tags and names, in source order. *)

From Verif Require Export Bytes.
From Coq Require Import String.
Local Open Scope byte_scope.

(** [Feature], src/layout/feature.rs:112-354: one constructor per row, and [Other]. *)
Inductive Feature :=
| FeatureAccessAllAlternates
| FeatureAboveBaseForms
| FeatureAboveBaseMarkPositioning
| FeatureAboveBaseSubstitutions
| FeatureAlternativeFractions
| FeatureAkhand
| FeatureBelowBaseForms
| FeatureBelowBaseMarkPositioning
| FeatureBelowBaseSubstitutions
| FeatureContextualAlternates
| FeatureCaseSensitiveForms
| FeatureGlyphCompositionDecomposition
| FeatureConjunctFormAfterRo
| FeatureContextualHalfWidthSpacing
| FeatureConjunctForms
| FeatureContextualLigatures
| FeatureCenteredCJKPunctuation
| FeatureCapitalSpacing
| FeatureContextualSwash
| FeatureCursivePositioning
| FeatureCharacterVariants1
| FeatureCharacterVariants2
| FeatureCharacterVariants3
| FeatureCharacterVariants4
| FeatureCharacterVariants5
| FeatureCharacterVariants6
| FeatureCharacterVariants7
| FeatureCharacterVariants8
| FeatureCharacterVariants9
| FeatureCharacterVariants10
| FeatureCharacterVariants11
| FeatureCharacterVariants12
| FeatureCharacterVariants13
| FeatureCharacterVariants14
| FeatureCharacterVariants15
| FeatureCharacterVariants16
| FeatureCharacterVariants17
| FeatureCharacterVariants18
| FeatureCharacterVariants19
| FeatureCharacterVariants20
| FeatureCharacterVariants21
| FeatureCharacterVariants22
| FeatureCharacterVariants23
| FeatureCharacterVariants24
| FeatureCharacterVariants25
| FeatureCharacterVariants26
| FeatureCharacterVariants27
| FeatureCharacterVariants28
| FeatureCharacterVariants29
| FeatureCharacterVariants30
| FeatureCharacterVariants31
| FeatureCharacterVariants32
| FeatureCharacterVariants33
| FeatureCharacterVariants34
| FeatureCharacterVariants35
| FeatureCharacterVariants36
| FeatureCharacterVariants37
| FeatureCharacterVariants38
| FeatureCharacterVariants39
| FeatureCharacterVariants40
| FeatureCharacterVariants41
| FeatureCharacterVariants42
| FeatureCharacterVariants43
| FeatureCharacterVariants44
| FeatureCharacterVariants45
| FeatureCharacterVariants46
| FeatureCharacterVariants47
| FeatureCharacterVariants48
| FeatureCharacterVariants49
| FeatureCharacterVariants50
| FeatureCharacterVariants51
| FeatureCharacterVariants52
| FeatureCharacterVariants53
| FeatureCharacterVariants54
| FeatureCharacterVariants55
| FeatureCharacterVariants56
| FeatureCharacterVariants57
| FeatureCharacterVariants58
| FeatureCharacterVariants59
| FeatureCharacterVariants60
| FeatureCharacterVariants61
| FeatureCharacterVariants62
| FeatureCharacterVariants63
| FeatureCharacterVariants64
| FeatureCharacterVariants65
| FeatureCharacterVariants66
| FeatureCharacterVariants67
| FeatureCharacterVariants68
| FeatureCharacterVariants69
| FeatureCharacterVariants70
| FeatureCharacterVariants71
| FeatureCharacterVariants72
| FeatureCharacterVariants73
| FeatureCharacterVariants74
| FeatureCharacterVariants75
| FeatureCharacterVariants76
| FeatureCharacterVariants77
| FeatureCharacterVariants78
| FeatureCharacterVariants79
| FeatureCharacterVariants80
| FeatureCharacterVariants81
| FeatureCharacterVariants82
| FeatureCharacterVariants83
| FeatureCharacterVariants84
| FeatureCharacterVariants85
| FeatureCharacterVariants86
| FeatureCharacterVariants87
| FeatureCharacterVariants88
| FeatureCharacterVariants89
| FeatureCharacterVariants90
| FeatureCharacterVariants91
| FeatureCharacterVariants92
| FeatureCharacterVariants93
| FeatureCharacterVariants94
| FeatureCharacterVariants95
| FeatureCharacterVariants96
| FeatureCharacterVariants97
| FeatureCharacterVariants98
| FeatureCharacterVariants99
| FeaturePetiteCapitalsFromCapitals
| FeatureSmallCapitalsFromCapitals
| FeatureDistances
| FeatureDiscretionaryLigatures
| FeatureDenominators
| FeatureDotlessForms
| FeatureExpertForms
| FeatureFinalGlyphonLineAlternates
| FeatureTerminalForms2
| FeatureTerminalForms3
| FeatureTerminalForms1
| FeatureFlattenedAccentForms
| FeatureFractions
| FeatureFullWidths
| FeatureHalfForms
| FeatureHalantForms
| FeatureAlternateHalfWidths
| FeatureHistoricalForms
| FeatureHorizontalKanaAlternates
| FeatureHistoricalLigatures
| FeatureHangul
| FeatureHojoKanjiForms
| FeatureHalfWidths
| FeatureInitialForms
| FeatureIsolatedForms
| FeatureItalics
| FeatureJustificationAlternates
| FeatureJIS78Forms
| FeatureJIS83Forms
| FeatureJIS90Forms
| FeatureJIS2004Forms
| FeatureKerning
| FeatureLeftBounds
| FeatureStandardLigatures
| FeatureLeadingJamoForms
| FeatureLiningFigures
| FeatureLocalizedForms
| FeatureLeftToRightAlternates
| FeatureLeftToRightMirroredForms
| FeatureMarkPositioning
| FeatureMedialForms2
| FeatureMedialForms1
| FeatureMathematicalGreek
| FeatureMarkToMarkPositioning
| FeatureMarkPositioningViaSubstitution
| FeatureAlternateAnnotationForms
| FeatureNLCKanjiForms
| FeatureNuktaForms
| FeatureNumerators
| FeatureOldstyleFigures
| FeatureOpticalBounds
| FeatureOrdinals
| FeatureOrnaments
| FeatureProportionalAlternateWidths
| FeaturePetiteCapitals
| FeatureProportionalKana
| FeatureProportionalFigures
| FeaturePreBaseForms
| FeaturePreBaseSubstitutions
| FeaturePostBaseForms
| FeaturePostBaseSubstitutions
| FeatureProportionalWidths
| FeatureQuarterWidths
| FeatureRandomize
| FeatureRequiredContextualAlternates
| FeatureRakarForms
| FeatureRequiredLigatures
| FeatureRephForms
| FeatureRightBounds
| FeatureRightToLeftAlternates
| FeatureRightToLeftMirroredForms
| FeatureRubyNotationForms
| FeatureRequiredVariationAlternates
| FeatureStylisticAlternates
| FeatureScientificInferiors
| FeatureOpticalSize
| FeatureSmallCapitals
| FeatureSimplifiedForms
| FeatureStylisticSet1
| FeatureStylisticSet2
| FeatureStylisticSet3
| FeatureStylisticSet4
| FeatureStylisticSet5
| FeatureStylisticSet6
| FeatureStylisticSet7
| FeatureStylisticSet8
| FeatureStylisticSet9
| FeatureStylisticSet10
| FeatureStylisticSet11
| FeatureStylisticSet12
| FeatureStylisticSet13
| FeatureStylisticSet14
| FeatureStylisticSet15
| FeatureStylisticSet16
| FeatureStylisticSet17
| FeatureStylisticSet18
| FeatureStylisticSet19
| FeatureStylisticSet20
| FeatureMathScriptStyleAlternates
| FeatureStretchingGlyphDecomposition
| FeatureSubscript
| FeatureSuperscript
| FeatureSwash
| FeatureTitling
| FeatureTrailingJamoForms
| FeatureTraditionalNameForms
| FeatureTabularFigures
| FeatureTraditionalForms
| FeatureThirdWidths
| FeatureUnicase
| FeatureAlternateVerticalMetrics
| FeatureVattuVariants
| FeatureVerticalContextualHalfWidthSpacing
| FeatureVerticalWriting
| FeatureAlternateVerticalHalfMetrics
| FeatureVowelJamoForms
| FeatureVerticalKanaAlternates
| FeatureVerticalKerning
| FeatureProportionalAlternateVerticalMetrics
| FeatureVerticalAlternatesAndRotation
| FeatureVerticalAlternatesForRotation
| FeatureSlashedZero
| FeatureOther (tag : tag).

(** The rows: tag and variant. *)
Definition feature_rows : list (tag * Feature) := [
  ((Tag "a" "a" "l" "t"), FeatureAccessAllAlternates);
  ((Tag "a" "b" "v" "f"), FeatureAboveBaseForms);
  ((Tag "a" "b" "v" "m"), FeatureAboveBaseMarkPositioning);
  ((Tag "a" "b" "v" "s"), FeatureAboveBaseSubstitutions);
  ((Tag "a" "f" "r" "c"), FeatureAlternativeFractions);
  ((Tag "a" "k" "h" "n"), FeatureAkhand);
  ((Tag "b" "l" "w" "f"), FeatureBelowBaseForms);
  ((Tag "b" "l" "w" "m"), FeatureBelowBaseMarkPositioning);
  ((Tag "b" "l" "w" "s"), FeatureBelowBaseSubstitutions);
  ((Tag "c" "a" "l" "t"), FeatureContextualAlternates);
  ((Tag "c" "a" "s" "e"), FeatureCaseSensitiveForms);
  ((Tag "c" "c" "m" "p"), FeatureGlyphCompositionDecomposition);
  ((Tag "c" "f" "a" "r"), FeatureConjunctFormAfterRo);
  ((Tag "c" "h" "w" "s"), FeatureContextualHalfWidthSpacing);
  ((Tag "c" "j" "c" "t"), FeatureConjunctForms);
  ((Tag "c" "l" "i" "g"), FeatureContextualLigatures);
  ((Tag "c" "p" "c" "t"), FeatureCenteredCJKPunctuation);
  ((Tag "c" "p" "s" "p"), FeatureCapitalSpacing);
  ((Tag "c" "s" "w" "h"), FeatureContextualSwash);
  ((Tag "c" "u" "r" "s"), FeatureCursivePositioning);
  ((Tag "c" "v" "0" "1"), FeatureCharacterVariants1);
  ((Tag "c" "v" "0" "2"), FeatureCharacterVariants2);
  ((Tag "c" "v" "0" "3"), FeatureCharacterVariants3);
  ((Tag "c" "v" "0" "4"), FeatureCharacterVariants4);
  ((Tag "c" "v" "0" "5"), FeatureCharacterVariants5);
  ((Tag "c" "v" "0" "6"), FeatureCharacterVariants6);
  ((Tag "c" "v" "0" "7"), FeatureCharacterVariants7);
  ((Tag "c" "v" "0" "8"), FeatureCharacterVariants8);
  ((Tag "c" "v" "0" "9"), FeatureCharacterVariants9);
  ((Tag "c" "v" "1" "0"), FeatureCharacterVariants10);
  ((Tag "c" "v" "1" "1"), FeatureCharacterVariants11);
  ((Tag "c" "v" "1" "2"), FeatureCharacterVariants12);
  ((Tag "c" "v" "1" "3"), FeatureCharacterVariants13);
  ((Tag "c" "v" "1" "4"), FeatureCharacterVariants14);
  ((Tag "c" "v" "1" "5"), FeatureCharacterVariants15);
  ((Tag "c" "v" "1" "6"), FeatureCharacterVariants16);
  ((Tag "c" "v" "1" "7"), FeatureCharacterVariants17);
  ((Tag "c" "v" "1" "8"), FeatureCharacterVariants18);
  ((Tag "c" "v" "1" "9"), FeatureCharacterVariants19);
  ((Tag "c" "v" "2" "0"), FeatureCharacterVariants20);
  ((Tag "c" "v" "2" "1"), FeatureCharacterVariants21);
  ((Tag "c" "v" "2" "2"), FeatureCharacterVariants22);
  ((Tag "c" "v" "2" "3"), FeatureCharacterVariants23);
  ((Tag "c" "v" "2" "4"), FeatureCharacterVariants24);
  ((Tag "c" "v" "2" "5"), FeatureCharacterVariants25);
  ((Tag "c" "v" "2" "6"), FeatureCharacterVariants26);
  ((Tag "c" "v" "2" "7"), FeatureCharacterVariants27);
  ((Tag "c" "v" "2" "8"), FeatureCharacterVariants28);
  ((Tag "c" "v" "2" "9"), FeatureCharacterVariants29);
  ((Tag "c" "v" "3" "0"), FeatureCharacterVariants30);
  ((Tag "c" "v" "3" "1"), FeatureCharacterVariants31);
  ((Tag "c" "v" "3" "2"), FeatureCharacterVariants32);
  ((Tag "c" "v" "3" "3"), FeatureCharacterVariants33);
  ((Tag "c" "v" "3" "4"), FeatureCharacterVariants34);
  ((Tag "c" "v" "3" "5"), FeatureCharacterVariants35);
  ((Tag "c" "v" "3" "6"), FeatureCharacterVariants36);
  ((Tag "c" "v" "3" "7"), FeatureCharacterVariants37);
  ((Tag "c" "v" "3" "8"), FeatureCharacterVariants38);
  ((Tag "c" "v" "3" "9"), FeatureCharacterVariants39);
  ((Tag "c" "v" "4" "0"), FeatureCharacterVariants40);
  ((Tag "c" "v" "4" "1"), FeatureCharacterVariants41);
  ((Tag "c" "v" "4" "2"), FeatureCharacterVariants42);
  ((Tag "c" "v" "4" "3"), FeatureCharacterVariants43);
  ((Tag "c" "v" "4" "4"), FeatureCharacterVariants44);
  ((Tag "c" "v" "4" "5"), FeatureCharacterVariants45);
  ((Tag "c" "v" "4" "6"), FeatureCharacterVariants46);
  ((Tag "c" "v" "4" "7"), FeatureCharacterVariants47);
  ((Tag "c" "v" "4" "8"), FeatureCharacterVariants48);
  ((Tag "c" "v" "4" "9"), FeatureCharacterVariants49);
  ((Tag "c" "v" "5" "0"), FeatureCharacterVariants50);
  ((Tag "c" "v" "5" "1"), FeatureCharacterVariants51);
  ((Tag "c" "v" "5" "2"), FeatureCharacterVariants52);
  ((Tag "c" "v" "5" "3"), FeatureCharacterVariants53);
  ((Tag "c" "v" "5" "4"), FeatureCharacterVariants54);
  ((Tag "c" "v" "5" "5"), FeatureCharacterVariants55);
  ((Tag "c" "v" "5" "6"), FeatureCharacterVariants56);
  ((Tag "c" "v" "5" "7"), FeatureCharacterVariants57);
  ((Tag "c" "v" "5" "8"), FeatureCharacterVariants58);
  ((Tag "c" "v" "5" "9"), FeatureCharacterVariants59);
  ((Tag "c" "v" "6" "0"), FeatureCharacterVariants60);
  ((Tag "c" "v" "6" "1"), FeatureCharacterVariants61);
  ((Tag "c" "v" "6" "2"), FeatureCharacterVariants62);
  ((Tag "c" "v" "6" "3"), FeatureCharacterVariants63);
  ((Tag "c" "v" "6" "4"), FeatureCharacterVariants64);
  ((Tag "c" "v" "6" "5"), FeatureCharacterVariants65);
  ((Tag "c" "v" "6" "6"), FeatureCharacterVariants66);
  ((Tag "c" "v" "6" "7"), FeatureCharacterVariants67);
  ((Tag "c" "v" "6" "8"), FeatureCharacterVariants68);
  ((Tag "c" "v" "6" "9"), FeatureCharacterVariants69);
  ((Tag "c" "v" "7" "0"), FeatureCharacterVariants70);
  ((Tag "c" "v" "7" "1"), FeatureCharacterVariants71);
  ((Tag "c" "v" "7" "2"), FeatureCharacterVariants72);
  ((Tag "c" "v" "7" "3"), FeatureCharacterVariants73);
  ((Tag "c" "v" "7" "4"), FeatureCharacterVariants74);
  ((Tag "c" "v" "7" "5"), FeatureCharacterVariants75);
  ((Tag "c" "v" "7" "6"), FeatureCharacterVariants76);
  ((Tag "c" "v" "7" "7"), FeatureCharacterVariants77);
  ((Tag "c" "v" "7" "8"), FeatureCharacterVariants78);
  ((Tag "c" "v" "7" "9"), FeatureCharacterVariants79);
  ((Tag "c" "v" "8" "0"), FeatureCharacterVariants80);
  ((Tag "c" "v" "8" "1"), FeatureCharacterVariants81);
  ((Tag "c" "v" "8" "2"), FeatureCharacterVariants82);
  ((Tag "c" "v" "8" "3"), FeatureCharacterVariants83);
  ((Tag "c" "v" "8" "4"), FeatureCharacterVariants84);
  ((Tag "c" "v" "8" "5"), FeatureCharacterVariants85);
  ((Tag "c" "v" "8" "6"), FeatureCharacterVariants86);
  ((Tag "c" "v" "8" "7"), FeatureCharacterVariants87);
  ((Tag "c" "v" "8" "8"), FeatureCharacterVariants88);
  ((Tag "c" "v" "8" "9"), FeatureCharacterVariants89);
  ((Tag "c" "v" "9" "0"), FeatureCharacterVariants90);
  ((Tag "c" "v" "9" "1"), FeatureCharacterVariants91);
  ((Tag "c" "v" "9" "2"), FeatureCharacterVariants92);
  ((Tag "c" "v" "9" "3"), FeatureCharacterVariants93);
  ((Tag "c" "v" "9" "4"), FeatureCharacterVariants94);
  ((Tag "c" "v" "9" "5"), FeatureCharacterVariants95);
  ((Tag "c" "v" "9" "6"), FeatureCharacterVariants96);
  ((Tag "c" "v" "9" "7"), FeatureCharacterVariants97);
  ((Tag "c" "v" "9" "8"), FeatureCharacterVariants98);
  ((Tag "c" "v" "9" "9"), FeatureCharacterVariants99);
  ((Tag "c" "2" "p" "c"), FeaturePetiteCapitalsFromCapitals);
  ((Tag "c" "2" "s" "c"), FeatureSmallCapitalsFromCapitals);
  ((Tag "d" "i" "s" "t"), FeatureDistances);
  ((Tag "d" "l" "i" "g"), FeatureDiscretionaryLigatures);
  ((Tag "d" "n" "o" "m"), FeatureDenominators);
  ((Tag "d" "t" "l" "s"), FeatureDotlessForms);
  ((Tag "e" "x" "p" "t"), FeatureExpertForms);
  ((Tag "f" "a" "l" "t"), FeatureFinalGlyphonLineAlternates);
  ((Tag "f" "i" "n" "2"), FeatureTerminalForms2);
  ((Tag "f" "i" "n" "3"), FeatureTerminalForms3);
  ((Tag "f" "i" "n" "a"), FeatureTerminalForms1);
  ((Tag "f" "l" "a" "c"), FeatureFlattenedAccentForms);
  ((Tag "f" "r" "a" "c"), FeatureFractions);
  ((Tag "f" "w" "i" "d"), FeatureFullWidths);
  ((Tag "h" "a" "l" "f"), FeatureHalfForms);
  ((Tag "h" "a" "l" "n"), FeatureHalantForms);
  ((Tag "h" "a" "l" "t"), FeatureAlternateHalfWidths);
  ((Tag "h" "i" "s" "t"), FeatureHistoricalForms);
  ((Tag "h" "k" "n" "a"), FeatureHorizontalKanaAlternates);
  ((Tag "h" "l" "i" "g"), FeatureHistoricalLigatures);
  ((Tag "h" "n" "g" "l"), FeatureHangul);
  ((Tag "h" "o" "j" "o"), FeatureHojoKanjiForms);
  ((Tag "h" "w" "i" "d"), FeatureHalfWidths);
  ((Tag "i" "n" "i" "t"), FeatureInitialForms);
  ((Tag "i" "s" "o" "l"), FeatureIsolatedForms);
  ((Tag "i" "t" "a" "l"), FeatureItalics);
  ((Tag "j" "a" "l" "t"), FeatureJustificationAlternates);
  ((Tag "j" "p" "7" "8"), FeatureJIS78Forms);
  ((Tag "j" "p" "8" "3"), FeatureJIS83Forms);
  ((Tag "j" "p" "9" "0"), FeatureJIS90Forms);
  ((Tag "j" "p" "0" "4"), FeatureJIS2004Forms);
  ((Tag "k" "e" "r" "n"), FeatureKerning);
  ((Tag "l" "f" "b" "d"), FeatureLeftBounds);
  ((Tag "l" "i" "g" "a"), FeatureStandardLigatures);
  ((Tag "l" "j" "m" "o"), FeatureLeadingJamoForms);
  ((Tag "l" "n" "u" "m"), FeatureLiningFigures);
  ((Tag "l" "o" "c" "l"), FeatureLocalizedForms);
  ((Tag "l" "t" "r" "a"), FeatureLeftToRightAlternates);
  ((Tag "l" "t" "r" "m"), FeatureLeftToRightMirroredForms);
  ((Tag "m" "a" "r" "k"), FeatureMarkPositioning);
  ((Tag "m" "e" "d" "2"), FeatureMedialForms2);
  ((Tag "m" "e" "d" "i"), FeatureMedialForms1);
  ((Tag "m" "g" "r" "k"), FeatureMathematicalGreek);
  ((Tag "m" "k" "m" "k"), FeatureMarkToMarkPositioning);
  ((Tag "m" "s" "e" "t"), FeatureMarkPositioningViaSubstitution);
  ((Tag "n" "a" "l" "t"), FeatureAlternateAnnotationForms);
  ((Tag "n" "l" "c" "k"), FeatureNLCKanjiForms);
  ((Tag "n" "u" "k" "t"), FeatureNuktaForms);
  ((Tag "n" "u" "m" "r"), FeatureNumerators);
  ((Tag "o" "n" "u" "m"), FeatureOldstyleFigures);
  ((Tag "o" "p" "b" "d"), FeatureOpticalBounds);
  ((Tag "o" "r" "d" "n"), FeatureOrdinals);
  ((Tag "o" "r" "n" "m"), FeatureOrnaments);
  ((Tag "p" "a" "l" "t"), FeatureProportionalAlternateWidths);
  ((Tag "p" "c" "a" "p"), FeaturePetiteCapitals);
  ((Tag "p" "k" "n" "a"), FeatureProportionalKana);
  ((Tag "p" "n" "u" "m"), FeatureProportionalFigures);
  ((Tag "p" "r" "e" "f"), FeaturePreBaseForms);
  ((Tag "p" "r" "e" "s"), FeaturePreBaseSubstitutions);
  ((Tag "p" "s" "t" "f"), FeaturePostBaseForms);
  ((Tag "p" "s" "t" "s"), FeaturePostBaseSubstitutions);
  ((Tag "p" "w" "i" "d"), FeatureProportionalWidths);
  ((Tag "q" "w" "i" "d"), FeatureQuarterWidths);
  ((Tag "r" "a" "n" "d"), FeatureRandomize);
  ((Tag "r" "c" "l" "t"), FeatureRequiredContextualAlternates);
  ((Tag "r" "k" "r" "f"), FeatureRakarForms);
  ((Tag "r" "l" "i" "g"), FeatureRequiredLigatures);
  ((Tag "r" "p" "h" "f"), FeatureRephForms);
  ((Tag "r" "t" "b" "d"), FeatureRightBounds);
  ((Tag "r" "t" "l" "a"), FeatureRightToLeftAlternates);
  ((Tag "r" "t" "l" "m"), FeatureRightToLeftMirroredForms);
  ((Tag "r" "u" "b" "y"), FeatureRubyNotationForms);
  ((Tag "r" "v" "r" "n"), FeatureRequiredVariationAlternates);
  ((Tag "s" "a" "l" "t"), FeatureStylisticAlternates);
  ((Tag "s" "i" "n" "f"), FeatureScientificInferiors);
  ((Tag "s" "i" "z" "e"), FeatureOpticalSize);
  ((Tag "s" "m" "c" "p"), FeatureSmallCapitals);
  ((Tag "s" "m" "p" "l"), FeatureSimplifiedForms);
  ((Tag "s" "s" "0" "1"), FeatureStylisticSet1);
  ((Tag "s" "s" "0" "2"), FeatureStylisticSet2);
  ((Tag "s" "s" "0" "3"), FeatureStylisticSet3);
  ((Tag "s" "s" "0" "4"), FeatureStylisticSet4);
  ((Tag "s" "s" "0" "5"), FeatureStylisticSet5);
  ((Tag "s" "s" "0" "6"), FeatureStylisticSet6);
  ((Tag "s" "s" "0" "7"), FeatureStylisticSet7);
  ((Tag "s" "s" "0" "8"), FeatureStylisticSet8);
  ((Tag "s" "s" "0" "9"), FeatureStylisticSet9);
  ((Tag "s" "s" "1" "0"), FeatureStylisticSet10);
  ((Tag "s" "s" "1" "1"), FeatureStylisticSet11);
  ((Tag "s" "s" "1" "2"), FeatureStylisticSet12);
  ((Tag "s" "s" "1" "3"), FeatureStylisticSet13);
  ((Tag "s" "s" "1" "4"), FeatureStylisticSet14);
  ((Tag "s" "s" "1" "5"), FeatureStylisticSet15);
  ((Tag "s" "s" "1" "6"), FeatureStylisticSet16);
  ((Tag "s" "s" "1" "7"), FeatureStylisticSet17);
  ((Tag "s" "s" "1" "8"), FeatureStylisticSet18);
  ((Tag "s" "s" "1" "9"), FeatureStylisticSet19);
  ((Tag "s" "s" "2" "0"), FeatureStylisticSet20);
  ((Tag "s" "s" "t" "y"), FeatureMathScriptStyleAlternates);
  ((Tag "s" "t" "c" "h"), FeatureStretchingGlyphDecomposition);
  ((Tag "s" "u" "b" "s"), FeatureSubscript);
  ((Tag "s" "u" "p" "s"), FeatureSuperscript);
  ((Tag "s" "w" "s" "h"), FeatureSwash);
  ((Tag "t" "i" "t" "l"), FeatureTitling);
  ((Tag "t" "j" "m" "o"), FeatureTrailingJamoForms);
  ((Tag "t" "n" "a" "m"), FeatureTraditionalNameForms);
  ((Tag "t" "n" "u" "m"), FeatureTabularFigures);
  ((Tag "t" "r" "a" "d"), FeatureTraditionalForms);
  ((Tag "t" "w" "i" "d"), FeatureThirdWidths);
  ((Tag "u" "n" "i" "c"), FeatureUnicase);
  ((Tag "v" "a" "l" "t"), FeatureAlternateVerticalMetrics);
  ((Tag "v" "a" "t" "u"), FeatureVattuVariants);
  ((Tag "v" "c" "h" "w"), FeatureVerticalContextualHalfWidthSpacing);
  ((Tag "v" "e" "r" "t"), FeatureVerticalWriting);
  ((Tag "v" "h" "a" "l"), FeatureAlternateVerticalHalfMetrics);
  ((Tag "v" "j" "m" "o"), FeatureVowelJamoForms);
  ((Tag "v" "k" "n" "a"), FeatureVerticalKanaAlternates);
  ((Tag "v" "k" "r" "n"), FeatureVerticalKerning);
  ((Tag "v" "p" "a" "l"), FeatureProportionalAlternateVerticalMetrics);
  ((Tag "v" "r" "t" "2"), FeatureVerticalAlternatesAndRotation);
  ((Tag "v" "r" "t" "r"), FeatureVerticalAlternatesForRotation);
  ((Tag "z" "e" "r" "o"), FeatureSlashedZero)].

(** [From<Feature> for Tag]. *)
Definition feature_tag (value : Feature) : tag :=
  match value with
  | FeatureAccessAllAlternates => (Tag "a" "a" "l" "t")
  | FeatureAboveBaseForms => (Tag "a" "b" "v" "f")
  | FeatureAboveBaseMarkPositioning => (Tag "a" "b" "v" "m")
  | FeatureAboveBaseSubstitutions => (Tag "a" "b" "v" "s")
  | FeatureAlternativeFractions => (Tag "a" "f" "r" "c")
  | FeatureAkhand => (Tag "a" "k" "h" "n")
  | FeatureBelowBaseForms => (Tag "b" "l" "w" "f")
  | FeatureBelowBaseMarkPositioning => (Tag "b" "l" "w" "m")
  | FeatureBelowBaseSubstitutions => (Tag "b" "l" "w" "s")
  | FeatureContextualAlternates => (Tag "c" "a" "l" "t")
  | FeatureCaseSensitiveForms => (Tag "c" "a" "s" "e")
  | FeatureGlyphCompositionDecomposition => (Tag "c" "c" "m" "p")
  | FeatureConjunctFormAfterRo => (Tag "c" "f" "a" "r")
  | FeatureContextualHalfWidthSpacing => (Tag "c" "h" "w" "s")
  | FeatureConjunctForms => (Tag "c" "j" "c" "t")
  | FeatureContextualLigatures => (Tag "c" "l" "i" "g")
  | FeatureCenteredCJKPunctuation => (Tag "c" "p" "c" "t")
  | FeatureCapitalSpacing => (Tag "c" "p" "s" "p")
  | FeatureContextualSwash => (Tag "c" "s" "w" "h")
  | FeatureCursivePositioning => (Tag "c" "u" "r" "s")
  | FeatureCharacterVariants1 => (Tag "c" "v" "0" "1")
  | FeatureCharacterVariants2 => (Tag "c" "v" "0" "2")
  | FeatureCharacterVariants3 => (Tag "c" "v" "0" "3")
  | FeatureCharacterVariants4 => (Tag "c" "v" "0" "4")
  | FeatureCharacterVariants5 => (Tag "c" "v" "0" "5")
  | FeatureCharacterVariants6 => (Tag "c" "v" "0" "6")
  | FeatureCharacterVariants7 => (Tag "c" "v" "0" "7")
  | FeatureCharacterVariants8 => (Tag "c" "v" "0" "8")
  | FeatureCharacterVariants9 => (Tag "c" "v" "0" "9")
  | FeatureCharacterVariants10 => (Tag "c" "v" "1" "0")
  | FeatureCharacterVariants11 => (Tag "c" "v" "1" "1")
  | FeatureCharacterVariants12 => (Tag "c" "v" "1" "2")
  | FeatureCharacterVariants13 => (Tag "c" "v" "1" "3")
  | FeatureCharacterVariants14 => (Tag "c" "v" "1" "4")
  | FeatureCharacterVariants15 => (Tag "c" "v" "1" "5")
  | FeatureCharacterVariants16 => (Tag "c" "v" "1" "6")
  | FeatureCharacterVariants17 => (Tag "c" "v" "1" "7")
  | FeatureCharacterVariants18 => (Tag "c" "v" "1" "8")
  | FeatureCharacterVariants19 => (Tag "c" "v" "1" "9")
  | FeatureCharacterVariants20 => (Tag "c" "v" "2" "0")
  | FeatureCharacterVariants21 => (Tag "c" "v" "2" "1")
  | FeatureCharacterVariants22 => (Tag "c" "v" "2" "2")
  | FeatureCharacterVariants23 => (Tag "c" "v" "2" "3")
  | FeatureCharacterVariants24 => (Tag "c" "v" "2" "4")
  | FeatureCharacterVariants25 => (Tag "c" "v" "2" "5")
  | FeatureCharacterVariants26 => (Tag "c" "v" "2" "6")
  | FeatureCharacterVariants27 => (Tag "c" "v" "2" "7")
  | FeatureCharacterVariants28 => (Tag "c" "v" "2" "8")
  | FeatureCharacterVariants29 => (Tag "c" "v" "2" "9")
  | FeatureCharacterVariants30 => (Tag "c" "v" "3" "0")
  | FeatureCharacterVariants31 => (Tag "c" "v" "3" "1")
  | FeatureCharacterVariants32 => (Tag "c" "v" "3" "2")
  | FeatureCharacterVariants33 => (Tag "c" "v" "3" "3")
  | FeatureCharacterVariants34 => (Tag "c" "v" "3" "4")
  | FeatureCharacterVariants35 => (Tag "c" "v" "3" "5")
  | FeatureCharacterVariants36 => (Tag "c" "v" "3" "6")
  | FeatureCharacterVariants37 => (Tag "c" "v" "3" "7")
  | FeatureCharacterVariants38 => (Tag "c" "v" "3" "8")
  | FeatureCharacterVariants39 => (Tag "c" "v" "3" "9")
  | FeatureCharacterVariants40 => (Tag "c" "v" "4" "0")
  | FeatureCharacterVariants41 => (Tag "c" "v" "4" "1")
  | FeatureCharacterVariants42 => (Tag "c" "v" "4" "2")
  | FeatureCharacterVariants43 => (Tag "c" "v" "4" "3")
  | FeatureCharacterVariants44 => (Tag "c" "v" "4" "4")
  | FeatureCharacterVariants45 => (Tag "c" "v" "4" "5")
  | FeatureCharacterVariants46 => (Tag "c" "v" "4" "6")
  | FeatureCharacterVariants47 => (Tag "c" "v" "4" "7")
  | FeatureCharacterVariants48 => (Tag "c" "v" "4" "8")
  | FeatureCharacterVariants49 => (Tag "c" "v" "4" "9")
  | FeatureCharacterVariants50 => (Tag "c" "v" "5" "0")
  | FeatureCharacterVariants51 => (Tag "c" "v" "5" "1")
  | FeatureCharacterVariants52 => (Tag "c" "v" "5" "2")
  | FeatureCharacterVariants53 => (Tag "c" "v" "5" "3")
  | FeatureCharacterVariants54 => (Tag "c" "v" "5" "4")
  | FeatureCharacterVariants55 => (Tag "c" "v" "5" "5")
  | FeatureCharacterVariants56 => (Tag "c" "v" "5" "6")
  | FeatureCharacterVariants57 => (Tag "c" "v" "5" "7")
  | FeatureCharacterVariants58 => (Tag "c" "v" "5" "8")
  | FeatureCharacterVariants59 => (Tag "c" "v" "5" "9")
  | FeatureCharacterVariants60 => (Tag "c" "v" "6" "0")
  | FeatureCharacterVariants61 => (Tag "c" "v" "6" "1")
  | FeatureCharacterVariants62 => (Tag "c" "v" "6" "2")
  | FeatureCharacterVariants63 => (Tag "c" "v" "6" "3")
  | FeatureCharacterVariants64 => (Tag "c" "v" "6" "4")
  | FeatureCharacterVariants65 => (Tag "c" "v" "6" "5")
  | FeatureCharacterVariants66 => (Tag "c" "v" "6" "6")
  | FeatureCharacterVariants67 => (Tag "c" "v" "6" "7")
  | FeatureCharacterVariants68 => (Tag "c" "v" "6" "8")
  | FeatureCharacterVariants69 => (Tag "c" "v" "6" "9")
  | FeatureCharacterVariants70 => (Tag "c" "v" "7" "0")
  | FeatureCharacterVariants71 => (Tag "c" "v" "7" "1")
  | FeatureCharacterVariants72 => (Tag "c" "v" "7" "2")
  | FeatureCharacterVariants73 => (Tag "c" "v" "7" "3")
  | FeatureCharacterVariants74 => (Tag "c" "v" "7" "4")
  | FeatureCharacterVariants75 => (Tag "c" "v" "7" "5")
  | FeatureCharacterVariants76 => (Tag "c" "v" "7" "6")
  | FeatureCharacterVariants77 => (Tag "c" "v" "7" "7")
  | FeatureCharacterVariants78 => (Tag "c" "v" "7" "8")
  | FeatureCharacterVariants79 => (Tag "c" "v" "7" "9")
  | FeatureCharacterVariants80 => (Tag "c" "v" "8" "0")
  | FeatureCharacterVariants81 => (Tag "c" "v" "8" "1")
  | FeatureCharacterVariants82 => (Tag "c" "v" "8" "2")
  | FeatureCharacterVariants83 => (Tag "c" "v" "8" "3")
  | FeatureCharacterVariants84 => (Tag "c" "v" "8" "4")
  | FeatureCharacterVariants85 => (Tag "c" "v" "8" "5")
  | FeatureCharacterVariants86 => (Tag "c" "v" "8" "6")
  | FeatureCharacterVariants87 => (Tag "c" "v" "8" "7")
  | FeatureCharacterVariants88 => (Tag "c" "v" "8" "8")
  | FeatureCharacterVariants89 => (Tag "c" "v" "8" "9")
  | FeatureCharacterVariants90 => (Tag "c" "v" "9" "0")
  | FeatureCharacterVariants91 => (Tag "c" "v" "9" "1")
  | FeatureCharacterVariants92 => (Tag "c" "v" "9" "2")
  | FeatureCharacterVariants93 => (Tag "c" "v" "9" "3")
  | FeatureCharacterVariants94 => (Tag "c" "v" "9" "4")
  | FeatureCharacterVariants95 => (Tag "c" "v" "9" "5")
  | FeatureCharacterVariants96 => (Tag "c" "v" "9" "6")
  | FeatureCharacterVariants97 => (Tag "c" "v" "9" "7")
  | FeatureCharacterVariants98 => (Tag "c" "v" "9" "8")
  | FeatureCharacterVariants99 => (Tag "c" "v" "9" "9")
  | FeaturePetiteCapitalsFromCapitals => (Tag "c" "2" "p" "c")
  | FeatureSmallCapitalsFromCapitals => (Tag "c" "2" "s" "c")
  | FeatureDistances => (Tag "d" "i" "s" "t")
  | FeatureDiscretionaryLigatures => (Tag "d" "l" "i" "g")
  | FeatureDenominators => (Tag "d" "n" "o" "m")
  | FeatureDotlessForms => (Tag "d" "t" "l" "s")
  | FeatureExpertForms => (Tag "e" "x" "p" "t")
  | FeatureFinalGlyphonLineAlternates => (Tag "f" "a" "l" "t")
  | FeatureTerminalForms2 => (Tag "f" "i" "n" "2")
  | FeatureTerminalForms3 => (Tag "f" "i" "n" "3")
  | FeatureTerminalForms1 => (Tag "f" "i" "n" "a")
  | FeatureFlattenedAccentForms => (Tag "f" "l" "a" "c")
  | FeatureFractions => (Tag "f" "r" "a" "c")
  | FeatureFullWidths => (Tag "f" "w" "i" "d")
  | FeatureHalfForms => (Tag "h" "a" "l" "f")
  | FeatureHalantForms => (Tag "h" "a" "l" "n")
  | FeatureAlternateHalfWidths => (Tag "h" "a" "l" "t")
  | FeatureHistoricalForms => (Tag "h" "i" "s" "t")
  | FeatureHorizontalKanaAlternates => (Tag "h" "k" "n" "a")
  | FeatureHistoricalLigatures => (Tag "h" "l" "i" "g")
  | FeatureHangul => (Tag "h" "n" "g" "l")
  | FeatureHojoKanjiForms => (Tag "h" "o" "j" "o")
  | FeatureHalfWidths => (Tag "h" "w" "i" "d")
  | FeatureInitialForms => (Tag "i" "n" "i" "t")
  | FeatureIsolatedForms => (Tag "i" "s" "o" "l")
  | FeatureItalics => (Tag "i" "t" "a" "l")
  | FeatureJustificationAlternates => (Tag "j" "a" "l" "t")
  | FeatureJIS78Forms => (Tag "j" "p" "7" "8")
  | FeatureJIS83Forms => (Tag "j" "p" "8" "3")
  | FeatureJIS90Forms => (Tag "j" "p" "9" "0")
  | FeatureJIS2004Forms => (Tag "j" "p" "0" "4")
  | FeatureKerning => (Tag "k" "e" "r" "n")
  | FeatureLeftBounds => (Tag "l" "f" "b" "d")
  | FeatureStandardLigatures => (Tag "l" "i" "g" "a")
  | FeatureLeadingJamoForms => (Tag "l" "j" "m" "o")
  | FeatureLiningFigures => (Tag "l" "n" "u" "m")
  | FeatureLocalizedForms => (Tag "l" "o" "c" "l")
  | FeatureLeftToRightAlternates => (Tag "l" "t" "r" "a")
  | FeatureLeftToRightMirroredForms => (Tag "l" "t" "r" "m")
  | FeatureMarkPositioning => (Tag "m" "a" "r" "k")
  | FeatureMedialForms2 => (Tag "m" "e" "d" "2")
  | FeatureMedialForms1 => (Tag "m" "e" "d" "i")
  | FeatureMathematicalGreek => (Tag "m" "g" "r" "k")
  | FeatureMarkToMarkPositioning => (Tag "m" "k" "m" "k")
  | FeatureMarkPositioningViaSubstitution => (Tag "m" "s" "e" "t")
  | FeatureAlternateAnnotationForms => (Tag "n" "a" "l" "t")
  | FeatureNLCKanjiForms => (Tag "n" "l" "c" "k")
  | FeatureNuktaForms => (Tag "n" "u" "k" "t")
  | FeatureNumerators => (Tag "n" "u" "m" "r")
  | FeatureOldstyleFigures => (Tag "o" "n" "u" "m")
  | FeatureOpticalBounds => (Tag "o" "p" "b" "d")
  | FeatureOrdinals => (Tag "o" "r" "d" "n")
  | FeatureOrnaments => (Tag "o" "r" "n" "m")
  | FeatureProportionalAlternateWidths => (Tag "p" "a" "l" "t")
  | FeaturePetiteCapitals => (Tag "p" "c" "a" "p")
  | FeatureProportionalKana => (Tag "p" "k" "n" "a")
  | FeatureProportionalFigures => (Tag "p" "n" "u" "m")
  | FeaturePreBaseForms => (Tag "p" "r" "e" "f")
  | FeaturePreBaseSubstitutions => (Tag "p" "r" "e" "s")
  | FeaturePostBaseForms => (Tag "p" "s" "t" "f")
  | FeaturePostBaseSubstitutions => (Tag "p" "s" "t" "s")
  | FeatureProportionalWidths => (Tag "p" "w" "i" "d")
  | FeatureQuarterWidths => (Tag "q" "w" "i" "d")
  | FeatureRandomize => (Tag "r" "a" "n" "d")
  | FeatureRequiredContextualAlternates => (Tag "r" "c" "l" "t")
  | FeatureRakarForms => (Tag "r" "k" "r" "f")
  | FeatureRequiredLigatures => (Tag "r" "l" "i" "g")
  | FeatureRephForms => (Tag "r" "p" "h" "f")
  | FeatureRightBounds => (Tag "r" "t" "b" "d")
  | FeatureRightToLeftAlternates => (Tag "r" "t" "l" "a")
  | FeatureRightToLeftMirroredForms => (Tag "r" "t" "l" "m")
  | FeatureRubyNotationForms => (Tag "r" "u" "b" "y")
  | FeatureRequiredVariationAlternates => (Tag "r" "v" "r" "n")
  | FeatureStylisticAlternates => (Tag "s" "a" "l" "t")
  | FeatureScientificInferiors => (Tag "s" "i" "n" "f")
  | FeatureOpticalSize => (Tag "s" "i" "z" "e")
  | FeatureSmallCapitals => (Tag "s" "m" "c" "p")
  | FeatureSimplifiedForms => (Tag "s" "m" "p" "l")
  | FeatureStylisticSet1 => (Tag "s" "s" "0" "1")
  | FeatureStylisticSet2 => (Tag "s" "s" "0" "2")
  | FeatureStylisticSet3 => (Tag "s" "s" "0" "3")
  | FeatureStylisticSet4 => (Tag "s" "s" "0" "4")
  | FeatureStylisticSet5 => (Tag "s" "s" "0" "5")
  | FeatureStylisticSet6 => (Tag "s" "s" "0" "6")
  | FeatureStylisticSet7 => (Tag "s" "s" "0" "7")
  | FeatureStylisticSet8 => (Tag "s" "s" "0" "8")
  | FeatureStylisticSet9 => (Tag "s" "s" "0" "9")
  | FeatureStylisticSet10 => (Tag "s" "s" "1" "0")
  | FeatureStylisticSet11 => (Tag "s" "s" "1" "1")
  | FeatureStylisticSet12 => (Tag "s" "s" "1" "2")
  | FeatureStylisticSet13 => (Tag "s" "s" "1" "3")
  | FeatureStylisticSet14 => (Tag "s" "s" "1" "4")
  | FeatureStylisticSet15 => (Tag "s" "s" "1" "5")
  | FeatureStylisticSet16 => (Tag "s" "s" "1" "6")
  | FeatureStylisticSet17 => (Tag "s" "s" "1" "7")
  | FeatureStylisticSet18 => (Tag "s" "s" "1" "8")
  | FeatureStylisticSet19 => (Tag "s" "s" "1" "9")
  | FeatureStylisticSet20 => (Tag "s" "s" "2" "0")
  | FeatureMathScriptStyleAlternates => (Tag "s" "s" "t" "y")
  | FeatureStretchingGlyphDecomposition => (Tag "s" "t" "c" "h")
  | FeatureSubscript => (Tag "s" "u" "b" "s")
  | FeatureSuperscript => (Tag "s" "u" "p" "s")
  | FeatureSwash => (Tag "s" "w" "s" "h")
  | FeatureTitling => (Tag "t" "i" "t" "l")
  | FeatureTrailingJamoForms => (Tag "t" "j" "m" "o")
  | FeatureTraditionalNameForms => (Tag "t" "n" "a" "m")
  | FeatureTabularFigures => (Tag "t" "n" "u" "m")
  | FeatureTraditionalForms => (Tag "t" "r" "a" "d")
  | FeatureThirdWidths => (Tag "t" "w" "i" "d")
  | FeatureUnicase => (Tag "u" "n" "i" "c")
  | FeatureAlternateVerticalMetrics => (Tag "v" "a" "l" "t")
  | FeatureVattuVariants => (Tag "v" "a" "t" "u")
  | FeatureVerticalContextualHalfWidthSpacing => (Tag "v" "c" "h" "w")
  | FeatureVerticalWriting => (Tag "v" "e" "r" "t")
  | FeatureAlternateVerticalHalfMetrics => (Tag "v" "h" "a" "l")
  | FeatureVowelJamoForms => (Tag "v" "j" "m" "o")
  | FeatureVerticalKanaAlternates => (Tag "v" "k" "n" "a")
  | FeatureVerticalKerning => (Tag "v" "k" "r" "n")
  | FeatureProportionalAlternateVerticalMetrics => (Tag "v" "p" "a" "l")
  | FeatureVerticalAlternatesAndRotation => (Tag "v" "r" "t" "2")
  | FeatureVerticalAlternatesForRotation => (Tag "v" "r" "t" "r")
  | FeatureSlashedZero => (Tag "z" "e" "r" "o")
  | FeatureOther tag => tag
  end.

(** The position in the declaration, which the derived [Ord] compares first. *)
Definition feature_rank (value : Feature) : N :=
  match value with
  | FeatureAccessAllAlternates => 0
  | FeatureAboveBaseForms => 1
  | FeatureAboveBaseMarkPositioning => 2
  | FeatureAboveBaseSubstitutions => 3
  | FeatureAlternativeFractions => 4
  | FeatureAkhand => 5
  | FeatureBelowBaseForms => 6
  | FeatureBelowBaseMarkPositioning => 7
  | FeatureBelowBaseSubstitutions => 8
  | FeatureContextualAlternates => 9
  | FeatureCaseSensitiveForms => 10
  | FeatureGlyphCompositionDecomposition => 11
  | FeatureConjunctFormAfterRo => 12
  | FeatureContextualHalfWidthSpacing => 13
  | FeatureConjunctForms => 14
  | FeatureContextualLigatures => 15
  | FeatureCenteredCJKPunctuation => 16
  | FeatureCapitalSpacing => 17
  | FeatureContextualSwash => 18
  | FeatureCursivePositioning => 19
  | FeatureCharacterVariants1 => 20
  | FeatureCharacterVariants2 => 21
  | FeatureCharacterVariants3 => 22
  | FeatureCharacterVariants4 => 23
  | FeatureCharacterVariants5 => 24
  | FeatureCharacterVariants6 => 25
  | FeatureCharacterVariants7 => 26
  | FeatureCharacterVariants8 => 27
  | FeatureCharacterVariants9 => 28
  | FeatureCharacterVariants10 => 29
  | FeatureCharacterVariants11 => 30
  | FeatureCharacterVariants12 => 31
  | FeatureCharacterVariants13 => 32
  | FeatureCharacterVariants14 => 33
  | FeatureCharacterVariants15 => 34
  | FeatureCharacterVariants16 => 35
  | FeatureCharacterVariants17 => 36
  | FeatureCharacterVariants18 => 37
  | FeatureCharacterVariants19 => 38
  | FeatureCharacterVariants20 => 39
  | FeatureCharacterVariants21 => 40
  | FeatureCharacterVariants22 => 41
  | FeatureCharacterVariants23 => 42
  | FeatureCharacterVariants24 => 43
  | FeatureCharacterVariants25 => 44
  | FeatureCharacterVariants26 => 45
  | FeatureCharacterVariants27 => 46
  | FeatureCharacterVariants28 => 47
  | FeatureCharacterVariants29 => 48
  | FeatureCharacterVariants30 => 49
  | FeatureCharacterVariants31 => 50
  | FeatureCharacterVariants32 => 51
  | FeatureCharacterVariants33 => 52
  | FeatureCharacterVariants34 => 53
  | FeatureCharacterVariants35 => 54
  | FeatureCharacterVariants36 => 55
  | FeatureCharacterVariants37 => 56
  | FeatureCharacterVariants38 => 57
  | FeatureCharacterVariants39 => 58
  | FeatureCharacterVariants40 => 59
  | FeatureCharacterVariants41 => 60
  | FeatureCharacterVariants42 => 61
  | FeatureCharacterVariants43 => 62
  | FeatureCharacterVariants44 => 63
  | FeatureCharacterVariants45 => 64
  | FeatureCharacterVariants46 => 65
  | FeatureCharacterVariants47 => 66
  | FeatureCharacterVariants48 => 67
  | FeatureCharacterVariants49 => 68
  | FeatureCharacterVariants50 => 69
  | FeatureCharacterVariants51 => 70
  | FeatureCharacterVariants52 => 71
  | FeatureCharacterVariants53 => 72
  | FeatureCharacterVariants54 => 73
  | FeatureCharacterVariants55 => 74
  | FeatureCharacterVariants56 => 75
  | FeatureCharacterVariants57 => 76
  | FeatureCharacterVariants58 => 77
  | FeatureCharacterVariants59 => 78
  | FeatureCharacterVariants60 => 79
  | FeatureCharacterVariants61 => 80
  | FeatureCharacterVariants62 => 81
  | FeatureCharacterVariants63 => 82
  | FeatureCharacterVariants64 => 83
  | FeatureCharacterVariants65 => 84
  | FeatureCharacterVariants66 => 85
  | FeatureCharacterVariants67 => 86
  | FeatureCharacterVariants68 => 87
  | FeatureCharacterVariants69 => 88
  | FeatureCharacterVariants70 => 89
  | FeatureCharacterVariants71 => 90
  | FeatureCharacterVariants72 => 91
  | FeatureCharacterVariants73 => 92
  | FeatureCharacterVariants74 => 93
  | FeatureCharacterVariants75 => 94
  | FeatureCharacterVariants76 => 95
  | FeatureCharacterVariants77 => 96
  | FeatureCharacterVariants78 => 97
  | FeatureCharacterVariants79 => 98
  | FeatureCharacterVariants80 => 99
  | FeatureCharacterVariants81 => 100
  | FeatureCharacterVariants82 => 101
  | FeatureCharacterVariants83 => 102
  | FeatureCharacterVariants84 => 103
  | FeatureCharacterVariants85 => 104
  | FeatureCharacterVariants86 => 105
  | FeatureCharacterVariants87 => 106
  | FeatureCharacterVariants88 => 107
  | FeatureCharacterVariants89 => 108
  | FeatureCharacterVariants90 => 109
  | FeatureCharacterVariants91 => 110
  | FeatureCharacterVariants92 => 111
  | FeatureCharacterVariants93 => 112
  | FeatureCharacterVariants94 => 113
  | FeatureCharacterVariants95 => 114
  | FeatureCharacterVariants96 => 115
  | FeatureCharacterVariants97 => 116
  | FeatureCharacterVariants98 => 117
  | FeatureCharacterVariants99 => 118
  | FeaturePetiteCapitalsFromCapitals => 119
  | FeatureSmallCapitalsFromCapitals => 120
  | FeatureDistances => 121
  | FeatureDiscretionaryLigatures => 122
  | FeatureDenominators => 123
  | FeatureDotlessForms => 124
  | FeatureExpertForms => 125
  | FeatureFinalGlyphonLineAlternates => 126
  | FeatureTerminalForms2 => 127
  | FeatureTerminalForms3 => 128
  | FeatureTerminalForms1 => 129
  | FeatureFlattenedAccentForms => 130
  | FeatureFractions => 131
  | FeatureFullWidths => 132
  | FeatureHalfForms => 133
  | FeatureHalantForms => 134
  | FeatureAlternateHalfWidths => 135
  | FeatureHistoricalForms => 136
  | FeatureHorizontalKanaAlternates => 137
  | FeatureHistoricalLigatures => 138
  | FeatureHangul => 139
  | FeatureHojoKanjiForms => 140
  | FeatureHalfWidths => 141
  | FeatureInitialForms => 142
  | FeatureIsolatedForms => 143
  | FeatureItalics => 144
  | FeatureJustificationAlternates => 145
  | FeatureJIS78Forms => 146
  | FeatureJIS83Forms => 147
  | FeatureJIS90Forms => 148
  | FeatureJIS2004Forms => 149
  | FeatureKerning => 150
  | FeatureLeftBounds => 151
  | FeatureStandardLigatures => 152
  | FeatureLeadingJamoForms => 153
  | FeatureLiningFigures => 154
  | FeatureLocalizedForms => 155
  | FeatureLeftToRightAlternates => 156
  | FeatureLeftToRightMirroredForms => 157
  | FeatureMarkPositioning => 158
  | FeatureMedialForms2 => 159
  | FeatureMedialForms1 => 160
  | FeatureMathematicalGreek => 161
  | FeatureMarkToMarkPositioning => 162
  | FeatureMarkPositioningViaSubstitution => 163
  | FeatureAlternateAnnotationForms => 164
  | FeatureNLCKanjiForms => 165
  | FeatureNuktaForms => 166
  | FeatureNumerators => 167
  | FeatureOldstyleFigures => 168
  | FeatureOpticalBounds => 169
  | FeatureOrdinals => 170
  | FeatureOrnaments => 171
  | FeatureProportionalAlternateWidths => 172
  | FeaturePetiteCapitals => 173
  | FeatureProportionalKana => 174
  | FeatureProportionalFigures => 175
  | FeaturePreBaseForms => 176
  | FeaturePreBaseSubstitutions => 177
  | FeaturePostBaseForms => 178
  | FeaturePostBaseSubstitutions => 179
  | FeatureProportionalWidths => 180
  | FeatureQuarterWidths => 181
  | FeatureRandomize => 182
  | FeatureRequiredContextualAlternates => 183
  | FeatureRakarForms => 184
  | FeatureRequiredLigatures => 185
  | FeatureRephForms => 186
  | FeatureRightBounds => 187
  | FeatureRightToLeftAlternates => 188
  | FeatureRightToLeftMirroredForms => 189
  | FeatureRubyNotationForms => 190
  | FeatureRequiredVariationAlternates => 191
  | FeatureStylisticAlternates => 192
  | FeatureScientificInferiors => 193
  | FeatureOpticalSize => 194
  | FeatureSmallCapitals => 195
  | FeatureSimplifiedForms => 196
  | FeatureStylisticSet1 => 197
  | FeatureStylisticSet2 => 198
  | FeatureStylisticSet3 => 199
  | FeatureStylisticSet4 => 200
  | FeatureStylisticSet5 => 201
  | FeatureStylisticSet6 => 202
  | FeatureStylisticSet7 => 203
  | FeatureStylisticSet8 => 204
  | FeatureStylisticSet9 => 205
  | FeatureStylisticSet10 => 206
  | FeatureStylisticSet11 => 207
  | FeatureStylisticSet12 => 208
  | FeatureStylisticSet13 => 209
  | FeatureStylisticSet14 => 210
  | FeatureStylisticSet15 => 211
  | FeatureStylisticSet16 => 212
  | FeatureStylisticSet17 => 213
  | FeatureStylisticSet18 => 214
  | FeatureStylisticSet19 => 215
  | FeatureStylisticSet20 => 216
  | FeatureMathScriptStyleAlternates => 217
  | FeatureStretchingGlyphDecomposition => 218
  | FeatureSubscript => 219
  | FeatureSuperscript => 220
  | FeatureSwash => 221
  | FeatureTitling => 222
  | FeatureTrailingJamoForms => 223
  | FeatureTraditionalNameForms => 224
  | FeatureTabularFigures => 225
  | FeatureTraditionalForms => 226
  | FeatureThirdWidths => 227
  | FeatureUnicase => 228
  | FeatureAlternateVerticalMetrics => 229
  | FeatureVattuVariants => 230
  | FeatureVerticalContextualHalfWidthSpacing => 231
  | FeatureVerticalWriting => 232
  | FeatureAlternateVerticalHalfMetrics => 233
  | FeatureVowelJamoForms => 234
  | FeatureVerticalKanaAlternates => 235
  | FeatureVerticalKerning => 236
  | FeatureProportionalAlternateVerticalMetrics => 237
  | FeatureVerticalAlternatesAndRotation => 238
  | FeatureVerticalAlternatesForRotation => 239
  | FeatureSlashedZero => 240
  | FeatureOther _ => 241
  end%N.

(** [Feature::name]. *)
Definition feature_name (value : Feature) : option string :=
  match value with
  | FeatureAccessAllAlternates => Some "Access All Alternates"%string
  | FeatureAboveBaseForms => Some "Above-base Forms"%string
  | FeatureAboveBaseMarkPositioning => Some "Above-base Mark Positioning"%string
  | FeatureAboveBaseSubstitutions => Some "Above-base Substitutions"%string
  | FeatureAlternativeFractions => Some "Alternative Fractions"%string
  | FeatureAkhand => Some "Akhand"%string
  | FeatureBelowBaseForms => Some "Below-base Forms"%string
  | FeatureBelowBaseMarkPositioning => Some "Below-base Mark Positioning"%string
  | FeatureBelowBaseSubstitutions => Some "Below-base Substitutions"%string
  | FeatureContextualAlternates => Some "Contextual Alternates"%string
  | FeatureCaseSensitiveForms => Some "Case-sensitive Forms"%string
  | FeatureGlyphCompositionDecomposition => Some "Glyph Composition and Decomposition"%string
  | FeatureConjunctFormAfterRo => Some "Conjunct Form After Ro"%string
  | FeatureContextualHalfWidthSpacing => Some "Contextual Half-width Spacing"%string
  | FeatureConjunctForms => Some "Conjunct Forms"%string
  | FeatureContextualLigatures => Some "Contextual Ligatures"%string
  | FeatureCenteredCJKPunctuation => Some "Centered CJK Punctuation"%string
  | FeatureCapitalSpacing => Some "Capital Spacing"%string
  | FeatureContextualSwash => Some "Contextual Swash"%string
  | FeatureCursivePositioning => Some "Cursive Positioning"%string
  | FeatureCharacterVariants1 => Some "Character Variants 1"%string
  | FeatureCharacterVariants2 => Some "Character Variants 2"%string
  | FeatureCharacterVariants3 => Some "Character Variants 3"%string
  | FeatureCharacterVariants4 => Some "Character Variants 4"%string
  | FeatureCharacterVariants5 => Some "Character Variants 5"%string
  | FeatureCharacterVariants6 => Some "Character Variants 6"%string
  | FeatureCharacterVariants7 => Some "Character Variants 7"%string
  | FeatureCharacterVariants8 => Some "Character Variants 8"%string
  | FeatureCharacterVariants9 => Some "Character Variants 9"%string
  | FeatureCharacterVariants10 => Some "Character Variants 10"%string
  | FeatureCharacterVariants11 => Some "Character Variants 11"%string
  | FeatureCharacterVariants12 => Some "Character Variants 12"%string
  | FeatureCharacterVariants13 => Some "Character Variants 13"%string
  | FeatureCharacterVariants14 => Some "Character Variants 14"%string
  | FeatureCharacterVariants15 => Some "Character Variants 15"%string
  | FeatureCharacterVariants16 => Some "Character Variants 16"%string
  | FeatureCharacterVariants17 => Some "Character Variants 17"%string
  | FeatureCharacterVariants18 => Some "Character Variants 18"%string
  | FeatureCharacterVariants19 => Some "Character Variants 19"%string
  | FeatureCharacterVariants20 => Some "Character Variants 20"%string
  | FeatureCharacterVariants21 => Some "Character Variants 21"%string
  | FeatureCharacterVariants22 => Some "Character Variants 22"%string
  | FeatureCharacterVariants23 => Some "Character Variants 23"%string
  | FeatureCharacterVariants24 => Some "Character Variants 24"%string
  | FeatureCharacterVariants25 => Some "Character Variants 25"%string
  | FeatureCharacterVariants26 => Some "Character Variants 26"%string
  | FeatureCharacterVariants27 => Some "Character Variants 27"%string
  | FeatureCharacterVariants28 => Some "Character Variants 28"%string
  | FeatureCharacterVariants29 => Some "Character Variants 29"%string
  | FeatureCharacterVariants30 => Some "Character Variants 30"%string
  | FeatureCharacterVariants31 => Some "Character Variants 31"%string
  | FeatureCharacterVariants32 => Some "Character Variants 32"%string
  | FeatureCharacterVariants33 => Some "Character Variants 33"%string
  | FeatureCharacterVariants34 => Some "Character Variants 34"%string
  | FeatureCharacterVariants35 => Some "Character Variants 35"%string
  | FeatureCharacterVariants36 => Some "Character Variants 36"%string
  | FeatureCharacterVariants37 => Some "Character Variants 37"%string
  | FeatureCharacterVariants38 => Some "Character Variants 38"%string
  | FeatureCharacterVariants39 => Some "Character Variants 39"%string
  | FeatureCharacterVariants40 => Some "Character Variants 40"%string
  | FeatureCharacterVariants41 => Some "Character Variants 41"%string
  | FeatureCharacterVariants42 => Some "Character Variants 42"%string
  | FeatureCharacterVariants43 => Some "Character Variants 43"%string
  | FeatureCharacterVariants44 => Some "Character Variants 44"%string
  | FeatureCharacterVariants45 => Some "Character Variants 45"%string
  | FeatureCharacterVariants46 => Some "Character Variants 46"%string
  | FeatureCharacterVariants47 => Some "Character Variants 47"%string
  | FeatureCharacterVariants48 => Some "Character Variants 48"%string
  | FeatureCharacterVariants49 => Some "Character Variants 49"%string
  | FeatureCharacterVariants50 => Some "Character Variants 50"%string
  | FeatureCharacterVariants51 => Some "Character Variants 51"%string
  | FeatureCharacterVariants52 => Some "Character Variants 52"%string
  | FeatureCharacterVariants53 => Some "Character Variants 53"%string
  | FeatureCharacterVariants54 => Some "Character Variants 54"%string
  | FeatureCharacterVariants55 => Some "Character Variants 55"%string
  | FeatureCharacterVariants56 => Some "Character Variants 56"%string
  | FeatureCharacterVariants57 => Some "Character Variants 57"%string
  | FeatureCharacterVariants58 => Some "Character Variants 58"%string
  | FeatureCharacterVariants59 => Some "Character Variants 59"%string
  | FeatureCharacterVariants60 => Some "Character Variants 60"%string
  | FeatureCharacterVariants61 => Some "Character Variants 61"%string
  | FeatureCharacterVariants62 => Some "Character Variants 62"%string
  | FeatureCharacterVariants63 => Some "Character Variants 63"%string
  | FeatureCharacterVariants64 => Some "Character Variants 64"%string
  | FeatureCharacterVariants65 => Some "Character Variants 65"%string
  | FeatureCharacterVariants66 => Some "Character Variants 66"%string
  | FeatureCharacterVariants67 => Some "Character Variants 67"%string
  | FeatureCharacterVariants68 => Some "Character Variants 68"%string
  | FeatureCharacterVariants69 => Some "Character Variants 69"%string
  | FeatureCharacterVariants70 => Some "Character Variants 70"%string
  | FeatureCharacterVariants71 => Some "Character Variants 71"%string
  | FeatureCharacterVariants72 => Some "Character Variants 72"%string
  | FeatureCharacterVariants73 => Some "Character Variants 73"%string
  | FeatureCharacterVariants74 => Some "Character Variants 74"%string
  | FeatureCharacterVariants75 => Some "Character Variants 75"%string
  | FeatureCharacterVariants76 => Some "Character Variants 76"%string
  | FeatureCharacterVariants77 => Some "Character Variants 77"%string
  | FeatureCharacterVariants78 => Some "Character Variants 78"%string
  | FeatureCharacterVariants79 => Some "Character Variants 79"%string
  | FeatureCharacterVariants80 => Some "Character Variants 80"%string
  | FeatureCharacterVariants81 => Some "Character Variants 81"%string
  | FeatureCharacterVariants82 => Some "Character Variants 82"%string
  | FeatureCharacterVariants83 => Some "Character Variants 83"%string
  | FeatureCharacterVariants84 => Some "Character Variants 84"%string
  | FeatureCharacterVariants85 => Some "Character Variants 85"%string
  | FeatureCharacterVariants86 => Some "Character Variants 86"%string
  | FeatureCharacterVariants87 => Some "Character Variants 87"%string
  | FeatureCharacterVariants88 => Some "Character Variants 88"%string
  | FeatureCharacterVariants89 => Some "Character Variants 89"%string
  | FeatureCharacterVariants90 => Some "Character Variants 90"%string
  | FeatureCharacterVariants91 => Some "Character Variants 91"%string
  | FeatureCharacterVariants92 => Some "Character Variants 92"%string
  | FeatureCharacterVariants93 => Some "Character Variants 93"%string
  | FeatureCharacterVariants94 => Some "Character Variants 94"%string
  | FeatureCharacterVariants95 => Some "Character Variants 95"%string
  | FeatureCharacterVariants96 => Some "Character Variants 96"%string
  | FeatureCharacterVariants97 => Some "Character Variants 97"%string
  | FeatureCharacterVariants98 => Some "Character Variants 98"%string
  | FeatureCharacterVariants99 => Some "Character Variants 99"%string
  | FeaturePetiteCapitalsFromCapitals => Some "Petite Capitals from Capitals"%string
  | FeatureSmallCapitalsFromCapitals => Some "Small Capitals from Capitals"%string
  | FeatureDistances => Some "Distances"%string
  | FeatureDiscretionaryLigatures => Some "Discretionary Ligatures"%string
  | FeatureDenominators => Some "Denominators"%string
  | FeatureDotlessForms => Some "Dotless Forms"%string
  | FeatureExpertForms => Some "Expert Forms"%string
  | FeatureFinalGlyphonLineAlternates => Some "Final Glyph on Line Alternates"%string
  | FeatureTerminalForms2 => Some "Terminal Forms 2"%string
  | FeatureTerminalForms3 => Some "Terminal Forms 3"%string
  | FeatureTerminalForms1 => Some "Terminal Forms 1"%string
  | FeatureFlattenedAccentForms => Some "Flattened Accent Forms"%string
  | FeatureFractions => Some "Fractions"%string
  | FeatureFullWidths => Some "Full Widths"%string
  | FeatureHalfForms => Some "Half Forms"%string
  | FeatureHalantForms => Some "Halant Forms"%string
  | FeatureAlternateHalfWidths => Some "Alternate Half Widths"%string
  | FeatureHistoricalForms => Some "Historical Forms"%string
  | FeatureHorizontalKanaAlternates => Some "Horizontal Kana Alternates"%string
  | FeatureHistoricalLigatures => Some "Historical Ligatures"%string
  | FeatureHangul => Some "Hangul"%string
  | FeatureHojoKanjiForms => Some "Hojo Kanji Forms"%string
  | FeatureHalfWidths => Some "Half Widths"%string
  | FeatureInitialForms => Some "Initial Forms"%string
  | FeatureIsolatedForms => Some "Isolated Forms"%string
  | FeatureItalics => Some "Italics"%string
  | FeatureJustificationAlternates => Some "Justification Alternates"%string
  | FeatureJIS78Forms => Some "JIS78 Forms"%string
  | FeatureJIS83Forms => Some "JIS83 Forms"%string
  | FeatureJIS90Forms => Some "JIS90 Forms"%string
  | FeatureJIS2004Forms => Some "JIS2004 Forms"%string
  | FeatureKerning => Some "Kerning"%string
  | FeatureLeftBounds => Some "Left Bounds"%string
  | FeatureStandardLigatures => Some "Standard Ligatures"%string
  | FeatureLeadingJamoForms => Some "Leading Jamo Forms"%string
  | FeatureLiningFigures => Some "Lining Figures"%string
  | FeatureLocalizedForms => Some "Localized Forms"%string
  | FeatureLeftToRightAlternates => Some "Left-to-right Alternates"%string
  | FeatureLeftToRightMirroredForms => Some "Left-to-right Mirrored Forms"%string
  | FeatureMarkPositioning => Some "Mark Positioning"%string
  | FeatureMedialForms2 => Some "Medial Forms 2"%string
  | FeatureMedialForms1 => Some "Medial Forms 1"%string
  | FeatureMathematicalGreek => Some "Mathematical Greek"%string
  | FeatureMarkToMarkPositioning => Some "Mark-to-mark Positioning"%string
  | FeatureMarkPositioningViaSubstitution => Some "Mark Positioning via Substitution"%string
  | FeatureAlternateAnnotationForms => Some "Alternate Annotation Forms"%string
  | FeatureNLCKanjiForms => Some "NLC Kanji Forms"%string
  | FeatureNuktaForms => Some "Nukta Forms"%string
  | FeatureNumerators => Some "Numerators"%string
  | FeatureOldstyleFigures => Some "Oldstyle Figures"%string
  | FeatureOpticalBounds => Some "Optical Bounds"%string
  | FeatureOrdinals => Some "Ordinals"%string
  | FeatureOrnaments => Some "Ornaments"%string
  | FeatureProportionalAlternateWidths => Some "Proportional Alternate Widths"%string
  | FeaturePetiteCapitals => Some "Petite Capitals"%string
  | FeatureProportionalKana => Some "Proportional Kana"%string
  | FeatureProportionalFigures => Some "Proportional Figures"%string
  | FeaturePreBaseForms => Some "Pre-base Forms"%string
  | FeaturePreBaseSubstitutions => Some "Pre-base Substitutions"%string
  | FeaturePostBaseForms => Some "Post-base Forms"%string
  | FeaturePostBaseSubstitutions => Some "Post-base Substitutions"%string
  | FeatureProportionalWidths => Some "Proportional Widths"%string
  | FeatureQuarterWidths => Some "Quarter Widths"%string
  | FeatureRandomize => Some "Randomize"%string
  | FeatureRequiredContextualAlternates => Some "Required Contextual Alternates"%string
  | FeatureRakarForms => Some "Rakar Forms"%string
  | FeatureRequiredLigatures => Some "Required Ligatures"%string
  | FeatureRephForms => Some "Reph Forms"%string
  | FeatureRightBounds => Some "Right Bounds"%string
  | FeatureRightToLeftAlternates => Some "Right-to-left Alternates"%string
  | FeatureRightToLeftMirroredForms => Some "Right-to-left Mirrored Forms"%string
  | FeatureRubyNotationForms => Some "Ruby Notation Forms"%string
  | FeatureRequiredVariationAlternates => Some "Required Variation Alternates"%string
  | FeatureStylisticAlternates => Some "Stylistic Alternates"%string
  | FeatureScientificInferiors => Some "Scientific Inferiors"%string
  | FeatureOpticalSize => Some "Optical Size"%string
  | FeatureSmallCapitals => Some "Small Capitals"%string
  | FeatureSimplifiedForms => Some "Simplified Forms"%string
  | FeatureStylisticSet1 => Some "Stylistic Set 1"%string
  | FeatureStylisticSet2 => Some "Stylistic Set 2"%string
  | FeatureStylisticSet3 => Some "Stylistic Set 3"%string
  | FeatureStylisticSet4 => Some "Stylistic Set 4"%string
  | FeatureStylisticSet5 => Some "Stylistic Set 5"%string
  | FeatureStylisticSet6 => Some "Stylistic Set 6"%string
  | FeatureStylisticSet7 => Some "Stylistic Set 7"%string
  | FeatureStylisticSet8 => Some "Stylistic Set 8"%string
  | FeatureStylisticSet9 => Some "Stylistic Set 9"%string
  | FeatureStylisticSet10 => Some "Stylistic Set 10"%string
  | FeatureStylisticSet11 => Some "Stylistic Set 11"%string
  | FeatureStylisticSet12 => Some "Stylistic Set 12"%string
  | FeatureStylisticSet13 => Some "Stylistic Set 13"%string
  | FeatureStylisticSet14 => Some "Stylistic Set 14"%string
  | FeatureStylisticSet15 => Some "Stylistic Set 15"%string
  | FeatureStylisticSet16 => Some "Stylistic Set 16"%string
  | FeatureStylisticSet17 => Some "Stylistic Set 17"%string
  | FeatureStylisticSet18 => Some "Stylistic Set 18"%string
  | FeatureStylisticSet19 => Some "Stylistic Set 19"%string
  | FeatureStylisticSet20 => Some "Stylistic Set 20"%string
  | FeatureMathScriptStyleAlternates => Some "Math Script Style Alternates"%string
  | FeatureStretchingGlyphDecomposition => Some "Stretching Glyph Decomposition"%string
  | FeatureSubscript => Some "Subscript"%string
  | FeatureSuperscript => Some "Superscript"%string
  | FeatureSwash => Some "Swash"%string
  | FeatureTitling => Some "Titling"%string
  | FeatureTrailingJamoForms => Some "Trailing Jamo Forms"%string
  | FeatureTraditionalNameForms => Some "Traditional Name Forms"%string
  | FeatureTabularFigures => Some "Tabular Figures"%string
  | FeatureTraditionalForms => Some "Traditional Forms"%string
  | FeatureThirdWidths => Some "Third Widths"%string
  | FeatureUnicase => Some "Unicase"%string
  | FeatureAlternateVerticalMetrics => Some "Alternate Vertical Metrics"%string
  | FeatureVattuVariants => Some "Vattu Variants"%string
  | FeatureVerticalContextualHalfWidthSpacing => Some "Vertical Contextual Half-width Spacing"%string
  | FeatureVerticalWriting => Some "Vertical Writing"%string
  | FeatureAlternateVerticalHalfMetrics => Some "Alternate Vertical Half Metrics"%string
  | FeatureVowelJamoForms => Some "Vowel Jamo Forms"%string
  | FeatureVerticalKanaAlternates => Some "Vertical Kana Alternates"%string
  | FeatureVerticalKerning => Some "Vertical Kerning"%string
  | FeatureProportionalAlternateVerticalMetrics => Some "Proportional Alternate Vertical Metrics"%string
  | FeatureVerticalAlternatesAndRotation => Some "Vertical Alternates and Rotation"%string
  | FeatureVerticalAlternatesForRotation => Some "Vertical Alternates for Rotation"%string
  | FeatureSlashedZero => Some "Slashed Zero"%string
  | FeatureOther _ => None
  end.
