(* The fixups that the program registers for its own use. *)
From Verif Require Import PyBase IdModel LineModel FixupModel FixupEntries FixupData1 FixupData2.

(* replacement_fixups.py *)
Definition replacement_fixups : list (pystr * list fixup_entry) := replacements1 ++ replacements2.
(* text_fixups.py:25-54: the calls of add_fixup one after the other *)
Definition text_fixups : list (pystr * fixup_entry) := [
  (u8 "2013. évi V. törvény", FEmptyAfter (u8 "A SZERZŐDÉS ÁLTALÁNOS SZABÁLYAI"));
  (u8 "2013. évi CLXXVII. törvény", FTitles);
  (u8 "2011. évi CLXIX. törvény", FReplace
    (u8 "(2) Az Mktv. 36. §-a a következő (4)–(6) bekezdéssel egészül ki:")
    (u8 "(2) Az Mktv. 36. §-a a következő (4)–(9) bekezdéssel egészül ki:") None);
  (u8 "2011. évi CLXIX. törvény", FReplace
    (u8 "adatot át kell adni az NMHH részére, amely azokat tárolja és kezeli.”")
    (u8 "adatot át kell adni az NMHH részére, amely azokat tárolja és kezeli.") None);
  (u8 "2011. évi CLXIX. törvény", FDelete (u8 "„(3) Az Mktv. 36. §-a a következő (7)–(9) bekezdéssel egészül ki:"));
  (u8 "2011. évi CLXIX. törvény", FReplace
    (u8 "„(7) 2012. január 1-je előtt a kiskorúak védelme érdekében")
    (u8 "(7) 2012. január 1-je előtt a kiskorúak védelme érdekében") None);
  (u8 "2013. évi LXXVIII. törvény", FDelete (u8 "212/A. §"));
  (u8 "2013. évi LXXVIII. törvény", FReplace
    (u8 "(1) Aki gyermekének szülője, továbbá az elkövetéskor vagy korábban vele közös háztartásban vagy egy lakásban")
    (u8 "212/A. § (1) Aki gyermekének szülője, továbbá az elkövetéskor vagy korábban vele közös háztartásban vagy egy lakásban") None)].
(* text_fixups.py:25-61: also the loop over the table *)
Definition program_history : list (pystr * fixup_entry) := text_fixups ++ flat_map (fun p => map (pair (fst p)) (snd p)) replacement_fixups.
Definition program_fixups : registry := fold_left (fun r e => add_fixup (fst e) (fixup_of (snd e)) r) program_history [].
(* what is registered for an act *)
Definition entries_of (id : pystr) : list fixup_entry := map snd (filter (fun e => str_eqb (fst e) id) program_history).
Definition fixed_acts : list pystr := map fst program_fixups.
