(* The table of replacements, second part: hun_law/fixups/replacement_fixups.py:1013-2227. *)
From Verif Require Import PyBase FixupEntries.

(* replacement_fixups.py:1013-2227, in the order of the file *)
Definition replacements2 : list (pystr * list fixup_entry) := [
  (u8 "2013. évi XLII. törvény", [
    FReplace (u8 "„When there is not enougn space in the manifest to enter all the goods carried,""")
      (u8 "„When there is not enougn space in the manifest to enter all the goods carried,”") None;
    FReplace (u8 "Replace twice in the second sentence the words”TIR operation” by „TIR transport”.")
      (u8 "Replace twice in the second sentence the words „TIR operation” by „TIR transport”.") None;
    FReplace (u8 "rögzítve a (9) bekezdésben említett kábellel vagy kötéllel.” “")
      (u8 "rögzítve a (9) bekezdésben említett kábellel vagy kötéllel.” ”") None;
    FReplace (u8 "TIR operation and/or transmission of the claim for payment to the TIR Carnet holder.“")
      (u8 "TIR operation and/or transmission of the claim for payment to the TIR Carnet holder.”") None;
    FReplace (u8 "“1. cikk (b) pont” szavakat váltsa fel az “1. cikk (f) pont.")
      (u8 "“1. cikk (b) pont” szavakat váltsa fel az “1. cikk (f) pont”.") None;
    FReplace (u8 "“1. cikk (e), (i) pont” szavakat váltsa fel az “1. cikk (j), (i) pont.")
      (u8 "“1. cikk (e), (i) pont” szavakat váltsa fel az “1. cikk (j), (i) pont”.") None;
    FReplace (u8 "”42b. cikk")
      (u8 "„42b. cikk") None;
    FReplace (u8 """1 ANNEX 1")
      (u8 "„1 ANNEX 1") None;
    FReplace (u8 "recognizable form and all other provisions of Rule 10 (c) are complied with.""")
      (u8 "recognizable form and all other provisions of Rule 10 (c) are complied with.”") None;
    FReplace (u8 "load compartments.""")
      (u8 "load compartments.”") None;
    FReplace (u8 """2.3.11 (a)-3”.")
      (u8 "„2.3.11 (a)-3”.") None;
    FReplace (u8 "biztosított dohány, illetve alkohol kategóriájáról.")
      (u8 "biztosított dohány, illetve alkohol kategóriájáról.”") None;
    FReplace (u8 "részében.")
      (u8 "részében.”") None;
    FReplace (u8 ",,8.13.1–1. Finanszírozási rendelkezések")
      (u8 "„8.13.1–1. Finanszírozási rendelkezések") None;
    FReplace (u8 ",,9. I. 1. a) Elismerten működő egyesület")
      (u8 "„9. I. 1. a) Elismerten működő egyesület") None;
    FReplace (u8 ",,9. II. 3. Engedélyező bizottság")
      (u8 "„9. II. 3. Engedélyező bizottság") None;
    FReplace (u8 ",,Nem kötelező a zárólap a csúszóponyvás járművek esetén sem.”")
      (u8 "„Nem kötelező a zárólap a csúszóponyvás járművek esetén sem.”") None;
    FReplace (u8 ",, Nem kötelező a zárólap a csúszóponyvás járművek esetében sem.” ”")
      (u8 "„ Nem kötelező a zárólap a csúszóponyvás járművek esetében sem.” ”") None;
    FReplace (u8 "„b) a ,,TIR-művelet'' kifejezés a TIR-fuvarozásnak azt a részét jelenti, amely egy Szerződő Fél")
      (u8 "„b) a „TIR-művelet'' kifejezés a TIR-fuvarozásnak azt a részét jelenti, amely egy Szerződő Fél") None;
    FReplace (u8 "c) a ,,TIR-művelet kezdete'' kifejezés azt jelenti, hogy a közúti járművet, járműszerelvényt vagy")
      (u8 "c) a „TIR-művelet kezdete'' kifejezés azt jelenti, hogy a közúti járművet, járműszerelvényt vagy") None;
    FReplace (u8 "d) a ,,TIR-művelet befejezése'' kifejezés azt jelenti, hogy a közúti járművet, járműszerelvényt")
      (u8 "d) a „TIR-művelet befejezése'' kifejezés azt jelenti, hogy a közúti járművet, járműszerelvényt") None;
    FReplace (u8 "e) a ,,TIR-művelet mentesítése'' kifejezés azt jelenti, hogy a vámhatóságok elfogadták, hogy a")
      (u8 "e) a „TIR-művelet mentesítése'' kifejezés azt jelenti, hogy a vámhatóságok elfogadták, hogy a") None;
    FReplace (u8 "„k) az ,,indulási vámhivatal'' kifejezés valamely Szerződő Fél bármelyik olyan vámhivatalát")
      (u8 "„k) az „indulási vámhivatal'' kifejezés valamely Szerződő Fél bármelyik olyan vámhivatalát") None;
    FReplace (u8 "l) a ,,rendeltetési vámhivatal'' kifejezés valamely Szerződő Fél bármelyik olyan vámhivatalát")
      (u8 "l) a „rendeltetési vámhivatal'' kifejezés valamely Szerződő Fél bármelyik olyan vámhivatalát") None;
    FReplace (u8 "m) az ,,átmenő vámhivatal'' kifejezés valamely Szerződő Fél bármelyik olyan vámhivatalát")
      (u8 "m) az „átmenő vámhivatal'' kifejezés valamely Szerződő Fél bármelyik olyan vámhivatalát") None;
    FReplace (u8 "„o) a TIR-igazolvány ,,birtokosa'' kifejezés azt a személyt jelenti, aki számára a TIR-igazolványt")
      (u8 "„o) a TIR-igazolvány „birtokosa'' kifejezés azt a személyt jelenti, aki számára a TIR-igazolványt") None;
    FReplace (u8 "Példa a csúszóponyvás jármű szerkezetére")
      (u8 "Példa a csúszóponyvás jármű szerkezetére”") (Some [u8 "“ 9. számú vázlat"]);
    FReplace (u8 "Példa a csúszóponyvás jármű szerkezetére")
      (u8 "Példa a csúszóponyvás jármű szerkezetére”") (Some [u8 "“9. számú vázlat"]);
    FReplace (u8 "„b) a „TIR-művelet'' kifejezés a TIR-fuvarozásnak azt a részét jelenti, amely egy Szerződő Fél")
      (u8 "„b) a „TIR-művelet” kifejezés a TIR-fuvarozásnak azt a részét jelenti, amely egy Szerződő Fél") None;
    FReplace (u8 "c) a „TIR-művelet kezdete'' kifejezés azt jelenti, hogy a közúti járművet, járműszerelvényt vagy")
      (u8 "c) a „TIR-művelet kezdete” kifejezés azt jelenti, hogy a közúti járművet, járműszerelvényt vagy") None;
    FReplace (u8 "d) a „TIR-művelet befejezése'' kifejezés azt jelenti, hogy a közúti járművet, járműszerelvényt")
      (u8 "d) a „TIR-művelet befejezése” kifejezés azt jelenti, hogy a közúti járművet, járműszerelvényt") None;
    FReplace (u8 "e) a „TIR-művelet mentesítése'' kifejezés azt jelenti, hogy a vámhatóságok elfogadták, hogy a")
      (u8 "e) a „TIR-művelet mentesítése” kifejezés azt jelenti, hogy a vámhatóságok elfogadták, hogy a") None;
    FReplace (u8 "„k) az „indulási vámhivatal'' kifejezés valamely Szerződő Fél bármelyik olyan vámhivatalát")
      (u8 "„k) az „indulási vámhivatal” kifejezés valamely Szerződő Fél bármelyik olyan vámhivatalát") None;
    FReplace (u8 "l) a „rendeltetési vámhivatal'' kifejezés valamely Szerződő Fél bármelyik olyan vámhivatalát")
      (u8 "l) a „rendeltetési vámhivatal” kifejezés valamely Szerződő Fél bármelyik olyan vámhivatalát") None;
    FReplace (u8 "m) az „átmenő vámhivatal'' kifejezés valamely Szerződő Fél bármelyik olyan vámhivatalát")
      (u8 "m) az „átmenő vámhivatal” kifejezés valamely Szerződő Fél bármelyik olyan vámhivatalát") None;
    FReplace (u8 "ventilation aperture.''")
      (u8 "ventilation aperture.""") None;
    FReplace (u8 "„o) a TIR-igazolvány „birtokosa'' kifejezés azt a személyt jelenti, aki számára a TIR-igazolványt")
      (u8 "„o) a TIR-igazolvány „birtokosa” kifejezés azt a személyt jelenti, aki számára a TIR-igazolványt") None;
    FReplace (u8 "above-mentioned international organization.”")
      (u8 "above-mentioned international organization.””") None;
    FReplace (u8 "A bekezdésben kerüljön törlésre a minimum szó az „A“ szó után.")
      (u8 "A bekezdésben kerüljön törlésre a minimum szó az „A” szó után.") None;
    FReplace (u8 "helyen.”")
      (u8 "helyen.””") None
  ]);
  (u8 "2013. évi XX. törvény", [
    FReplace (u8 ",,(4) A 3. § (4) bekezdése szerinti esetben az OBH elnöke a kinevezésre vonatkozó javaslatának felterjesztése előtt")
      (u8 "„(4) A 3. § (4) bekezdése szerinti esetben az OBH elnöke a kinevezésre vonatkozó javaslatának felterjesztése előtt") None
  ]);
  (u8 "2013. évi XXI. törvény", [
    FReplace (u8 "helyébe a „miniszter” szöveg lép.”")
      (u8 "helyébe a „miniszter” szöveg lép.") None
  ]);
  (u8 "2014. évi CVI. törvény", [
    FReplace (u8 "a „letett” szöveg”,")
      (u8 "a „letett” szöveg,") None
  ]);
  (u8 "2014. évi LIII. törvény", [
    FReplace (u8 "”the Parties”) have approved an Arrangement on the operation of a Working Holiday Scheme (hereinafter referred")
      (u8 "“the Parties”) have approved an Arrangement on the operation of a Working Holiday Scheme (hereinafter referred") None;
    FReplace (u8 "to as ”the Scheme”) between the Parties. The purpose of the Scheme is to enhance cultural and people-to-people")
      (u8 "to as “the Scheme”) between the Parties. The purpose of the Scheme is to enhance cultural and people-to-people") None;
    FReplace (u8 "(a) ”Taiwan” means the territory in respect of which the immigration laws administered by the Ministry of the")
      (u8 "(a) “Taiwan” means the territory in respect of which the immigration laws administered by the Ministry of the") None;
    FReplace (u8 "(b) ”Hungary” means the territory in respect of which Hungarian immigration laws are applied at the date of the")
      (u8 "(b) “Hungary” means the territory in respect of which Hungarian immigration laws are applied at the date of the") None;
    FReplace (u8 "a ”working holiday visa”), valid for a period of twelve (12) months from the date of issue, to any person who satisfies")
      (u8 "a “working holiday visa”), valid for a period of twelve (12) months from the date of issue, to any person who satisfies") None;
    FReplace (u8 "A tajpeji Magyar Kereskedelmi Iroda és a Magyarországi Tajpej Képviseleti Iroda (a továbbiakban: ,,Szerződő")
      (u8 "A tajpeji Magyar Kereskedelmi Iroda és a Magyarországi Tajpej Képviseleti Iroda (a továbbiakban: „Szerződő") None;
    FReplace (u8 "Felek”) az ideiglenesen munkát vállaló turisták programjáról szóló Megállapodás (a továbbiakban: ,,Program”)")
      (u8 "Felek”) az ideiglenesen munkát vállaló turisták programjáról szóló Megállapodás (a továbbiakban: „Program”)") None
  ]);
  (u8 "2014. évi LVII. törvény", [
    FReplace (u8 "„")
      (u8 "”") None
  ]);
  (u8 "2014. évi LXII. törvény", [
    FReplace (u8 "(2) ,,A helyi önkormányzatok általános működésének és ágazati feladatainak támogatása” cím előirányzatait és")
      (u8 "(2) „A helyi önkormányzatok általános működésének és ágazati feladatainak támogatása” cím előirányzatait és") None;
    FReplace (u8 ",,a helyi önkormányzatok általános működésének és ágazati feladatainak támogatása” címen megillető, és a részükre")
      (u8 "„a helyi önkormányzatok általános működésének és ágazati feladatainak támogatása” címen megillető, és a részükre") None
  ]);
  (u8 "2014. évi LXV. törvény", [
    FReplace (u8 "(2) A Btk. 28. § (la) bekezdése helyébe a következő rendelkezés lép:")
      (u8 "(2) A Btk. 28. § (1a) bekezdése helyébe a következő rendelkezés lép:") None;
    FReplace (u8 "„(la) Ha az erős felindulásban elkövetett emberölés, a háromévi szabadságvesztésnél súlyosabban büntetendő")
      (u8 "„(1a) Ha az erős felindulásban elkövetett emberölés, a háromévi szabadságvesztésnél súlyosabban büntetendő") None
  ]);
  (u8 "2014. évi LXXII. törvény", [
    FReplace (u8 "az elkövetővel szemben életfogytig tartó szabadságvesztést kell kiszabni. Halmazati büntetés esetén a 81. §")
      (u8 "az elkövetővel szemben életfogytig tartó szabadságvesztést kell kiszabni. Halmazati büntetés esetén a 81. § (3)") None;
    FReplace (u8 "(3) bekezdése szerinti büntetési tételt, tárgyalásról lemondás esetén a 83. § (2) bekezdése szerinti büntetési tételt")
      (u8 "bekezdése szerinti büntetési tételt, tárgyalásról lemondás esetén a 83. § (2) bekezdése szerinti büntetési tételt") None
  ]);
  (u8 "2014. évi LXXIV. törvény", [
    FReplace (u8 "a „2013. január 1-jétől” szövegrész helyébe a „2013. július 1-jétől” szöveg, a 2015. január 1-jével” szövegrész")
      (u8 "a „2013. január 1-jétől” szövegrész helyébe a „2013. július 1-jétől” szöveg, a „2015. január 1-jével” szövegrész") None
  ]);
  (u8 "2014. évi VI. törvény", [
    FReplace (u8 "ОРГАНИЗАЦИИ КОСМИЧЕСКОЙ СВЯЗИ ”ИНТЕРСПУТНИК”")
      (u8 "ОРГАНИЗАЦИИ КОСМИЧЕСКОЙ СВЯЗИ “ИНТЕРСПУТНИК”") None
  ]);
  (u8 "2014. évi XCIII. törvény", [
    FReplace (u8 "d) „133. § (2) bekezdésében az „a helyi önkormányzat működésére” szövegrész helyébe az „az érintett")
      (u8 "d) 133. § (2) bekezdésében az „a helyi önkormányzat működésére” szövegrész helyébe az „az érintett") None
  ]);
  (u8 "2014. évi XI. törvény", [
    FReplace (u8 "meg.”” szövegrész helyébe az „* A rezsicsökkentés a fogyasztókat a 2012. április 14. napján alkalmazott díj")
      (u8 "meg.” szövegrész helyébe az „* A rezsicsökkentés a fogyasztókat a 2012. április 14. napján alkalmazott díj") None
  ]);
  (u8 "2014. évi XLIV. törvény", [
    FReplace (u8 "a) ”Aeronautical Authority” means in the case of the Government of the United Arab Emirates (UAE), the")
      (u8 "a) “Aeronautical Authority” means in the case of the Government of the United Arab Emirates (UAE), the") None;
    FReplace (u8 "b) ”Agreed Services” means scheduled international air services which can be operated for the transport")
      (u8 "b) “Agreed Services” means scheduled international air services which can be operated for the transport") None;
    FReplace (u8 "c) ”Agreement” means this Agreement, its Annexes and any amendments thereto;")
      (u8 "c) “Agreement” means this Agreement, its Annexes and any amendments thereto;") None;
    FReplace (u8 "d) ”Convention” means the Convention on International Civil Aviation, opened for signature at Chicago on")
      (u8 "d) “Convention” means the Convention on International Civil Aviation, opened for signature at Chicago on") None;
    FReplace (u8 "e) ”Air Service”, “Airline”, ”International Air Service” and ”stop for non traffic purposes” have the meanings")
      (u8 "e) “Air Service”, “Airline”, ”International Air Service” and ”stop for non traffic purposes” have the meanings") None;
    FReplace (u8 "f) ”Annexes” shall include provisions annexed to the Agreement such as the Route Schedule, the List of")
      (u8 "f) “Annexes” shall include provisions annexed to the Agreement such as the Route Schedule, the List of") None;
    FReplace (u8 "g) ”Designated Airlines” means an airline or airlines that have been designated and authorized in accordance")
      (u8 "g) “Designated Airlines” means an airline or airlines that have been designated and authorized in accordance") None;
    FReplace (u8 "i) ”Territory” in relation to a State has the meaning assigned to it in Article 2 of the Convention;")
      (u8 "i) “Territory” in relation to a State has the meaning assigned to it in Article 2 of the Convention;") None;
    FReplace (u8 "l) References in this Agreement to the ”EU Treaties” shall be understood as referring to the Treaty on European")
      (u8 "l) References in this Agreement to the “EU Treaties” shall be understood as referring to the Treaty on European") None;
    FReplace (u8 "called ”ramp inspection”), provided this does not lead to unreasonable delay.")
      (u8 "called “ramp inspection”), provided this does not lead to unreasonable delay.") None;
    FReplace (u8 "e) “Air Service”, “Airline”, ”International Air Service” and ”stop for non traffic purposes” have the meanings")
      (u8 "e) “Air Service”, “Airline”, “International Air Service” and “stop for non traffic purposes” have the meanings") None;
    FReplace (u8 "légitársaságai üzemeltetik.")
      (u8 "légitársaságai üzemeltetik.”") None
  ]);
  (u8 "2014. évi XLIX. törvény", [
    FReplace (u8 "(a) in Bahrain, to income tax payable under Amiri Decree No. 22/1979 (hereinafter referred to as ”Bahrain Tax”);")
      (u8 "(a) in Bahrain, to income tax payable under Amiri Decree No. 22/1979 (hereinafter referred to as “Bahrain Tax”);") None
  ]);
  (u8 "2014. évi XXXIX. törvény", [
    FReplace (u8 ",,(4) Az ajánlat az egyetemes szolgáltatásra jogosult azon felhasználók ellátásához szükséges földgázmennyiség")
      (u8 "„(4) Az ajánlat az egyetemes szolgáltatásra jogosult azon felhasználók ellátásához szükséges földgázmennyiség") None
  ]);
  (u8 "2015. évi CI. törvény", [
    FReplace (u8 "rendelkezések lépnek és a bekezdés a következő 4a. ponttal egészül ki:")
      (u8 "rendelkezések lépnek:") None
  ]);
  (u8 "2015. évi CIV. törvény", [
    FReplace (u8 "„Felhatalmazás")
      (u8 "Felhatalmazás") None;
    FReplace (u8 "28. § Felhatalmazást kap a Kormány, hogy e törvény alapján")
      (u8 "„28. § Felhatalmazást kap a Kormány, hogy e törvény alapján") None
  ]);
  (u8 "2015. évi CXL. törvény", [
    FReplace (u8 "31. § A Btk. a következő 352/A–C. §-sal és az azokat megelőző alcímekkel egészül ki:")
      (u8 "31. § A Btk. a következő 352/A–352/C. §-sal és az azokat megelőző alcímekkel egészül ki:") None
  ]);
  (u8 "2015. évi LXX. törvény", [
    FReplace (u8 "„Felek“)")
      (u8 "„Felek”)") None;
    FReplace (u8 "elősegítéséről szóló, Mátraházán, 2012. október 11-én kelt Megállapodás (a továbbiakban: „CBE-megállapodás“)")
      (u8 "elősegítéséről szóló, Mátraházán, 2012. október 11-én kelt Megállapodás (a továbbiakban: „CBE-megállapodás”)") None;
    FReplace (u8 "válasz“")
      (u8 "válasz”") (Some [u8 "FÜGGELÉKEK: a jelen ATIA 4. Cikke alapján felhasznált személyes adatok"; u8 ""; u8 "A Függelék: Az ATIA 4. Cikk (1) bekezdése alapján használt személyes adatok"; u8 "„A gépjárművezető személyazonosságának megállapítására irányuló megkeresés és az arra adott"]);
    FReplace (u8 "„Személy címének megállapítására irányuló megkeresés és az arra adott válasz“")
      (u8 "„Személy címének megállapítására irányuló megkeresés és az arra adott válasz”") (Some [u8 "válasz”"; u8 ""; u8 "B Függelék: Az ATIA 4. Cikk (2) bekezdése alapján használt személyes adatok"]);
    FReplace (u8 "„Iratok megküldésére és kézbesítésére irányuló megkeresés és az arra adott válasz“")
      (u8 "„Iratok megküldésére és kézbesítésére irányuló megkeresés és az arra adott válasz”") (Some [u8 "„Személy címének megállapítására irányuló megkeresés és az arra adott válasz”"; u8 "C Függelék: Az ATIA 4. Cikk (3) bekezdése alapján használt személyes adatok"]);
    FReplace (u8 "válasz“")
      (u8 "válasz”") (Some [u8 "„Iratok megküldésére és kézbesítésére irányuló megkeresés és az arra adott válasz”"; u8 "D Függelék: Az ATIA 4. Cikk (4) bekezdése alapján használt személyes adatok"; u8 "„Határozatok határon átnyúló végrehajtására kézbesítésére irányuló megkeresés és az arra adott"]);
    FReplace (u8 "válasz“")
      (u8 "válasz”") (Some [u8 "„A gépjárművezető személyazonosságának megállapítására irányuló megkeresés és az arra adott"]);
    FReplace (u8 "„Személy címének megállapítására irányuló megkeresés és az arra adott válasz“")
      (u8 "„Személy címének megállapítására irányuló megkeresés és az arra adott válasz”") None;
    FReplace (u8 "„Iratok megküldésére és kézbesítésére irányuló megkeresés és az arra adott válasz“")
      (u8 "„Iratok megküldésére és kézbesítésére irányuló megkeresés és az arra adott válasz”") None;
    FReplace (u8 "válasz“")
      (u8 "válasz”") None
  ]);
  (u8 "2015. évi LXXVI. törvény", [
    FReplace (u8 "„187/B. (1) A bv. intézet az előterjesztés vagy a kérelem véleményezésének megalapozása érdekében megkeresi")
      (u8 "„187/B. § (1) A bv. intézet az előterjesztés vagy a kérelem véleményezésének megalapozása érdekében megkeresi") None
  ]);
  (u8 "2015. évi LXXX. törvény", [
    FReplace (u8 "„(1) A MÁÉRT-en részt vevő külhoni szervezet vagy szervezetek a saját országuk vonatkozásában külhoni nemzetrész")
      (u8 "„5. § (1) A MÁÉRT-en részt vevő külhoni szervezet vagy szervezetek a saját országuk vonatkozásában külhoni nemzetrész") None
  ]);
  (u8 "2015. évi XI. törvény", [
    FReplace (u8 "rendelkezései alapján nem él keresettel, az általános szabályok szerint pert indíthat a személyiségi jog védelme iránt.")
      (u8 "rendelkezései alapján nem él keresettel, az általános szabályok szerint pert indíthat a személyiségi jog védelme iránt.”") None
  ]);
  (u8 "2015. évi XLI. törvény", [
    FReplace (u8 "referred to as the ”Contracting Parties”),")
      (u8 "referred to as the “Contracting Parties”),") None;
    FReplace (u8 "Investment Bank (hereinafter the ”Agreement”), and Articles 29 and 30 of the Charter of the International")
      (u8 "Investment Bank (hereinafter the “Agreement”), and Articles 29 and 30 of the Charter of the International") None;
    FReplace (u8 "Investment Bank (hereinafter the ”Charter”), have agreed to amend the Agreement and the Charter as follows:")
      (u8 "Investment Bank (hereinafter the “Charter”), have agreed to amend the Agreement and the Charter as follows:") None;
    FReplace (u8 "Agreement Establishing the International Investment Bank (hereinafter the ”Restated Agreement”), together")
      (u8 "Agreement Establishing the International Investment Bank (hereinafter the “Restated Agreement”), together") None;
    FReplace (u8 "Protocol and the Restated Agreement (hereinafter the ”Depositary”).")
      (u8 "Protocol and the Restated Agreement (hereinafter the “Depositary”).") None;
    FReplace (u8 "Contracting Party has provided the Depositary with its instruments (hereinafter the ”Instrument”) of ratification,")
      (u8 "Contracting Party has provided the Depositary with its instruments (hereinafter the “Instrument”) of ratification,") None;
    FReplace (u8 "The International Investment Bank (hereinafter the ”Bank”) is established.")
      (u8 "The International Investment Bank (hereinafter the “Bank”) is established.") None;
    FReplace (u8 "3. Clause 1 of this Article, excluding sub-clauses ”a” and ”d”, shall not apply to relationships between a member")
      (u8 "3. Clause 1 of this Article, excluding sub-clauses “a” and “d”, shall not apply to relationships between a member") None;
    FReplace (u8 "The members of the International Investment Bank (hereinafter the ”Bank”) are the contracting parties to the")
      (u8 "The members of the International Investment Bank (hereinafter the “Bank”) are the contracting parties to the") None;
    FReplace (u8 "Agreement Establishing the Bank (hereinafter the ”Agreement”).")
      (u8 "Agreement Establishing the Bank (hereinafter the “Agreement”).") None;
    FReplace (u8 "The Bank’s full name in Russian shall be ”МЕЖДУНАРОДНЫЙ ИНВЕСТИЦИОННЫЙ БАНК”;")
      (u8 "The Bank’s full name in Russian shall be “МЕЖДУНАРОДНЫЙ ИНВЕСТИЦИОННЫЙ БАНК”;") None;
    FReplace (u8 "The Bank’s full name in English shall be ”INTERNATIONAL INVESTMENT BANK”;")
      (u8 "The Bank’s full name in English shall be “INTERNATIONAL INVESTMENT BANK”;") None;
    FReplace (u8 "The Bank’s abbreviated name in Russian shall be ”МИБ”;")
      (u8 "The Bank’s abbreviated name in Russian shall be “МИБ”;") None;
    FReplace (u8 "The Bank’s abbreviated name in English shall be ”IIB”.")
      (u8 "The Bank’s abbreviated name in English shall be “IIB”.") None;
    FReplace (u8 "(hereinafter a ”Withdrawing Member”) no less than six months before the proposed withdrawal date. The Bank")
      (u8 "(hereinafter a “Withdrawing Member”) no less than six months before the proposed withdrawal date. The Bank") None
  ]);
  (u8 "2015. évi XX. törvény", [
    FReplace (u8 "6) the terms “air service”, ”international air service”, ”airline” and “stop for non-traffic purposes” have the meanings")
      (u8 "6) the terms “air service”, “international air service”, “airline” and “stop for non-traffic purposes” have the meanings") None
  ]);
  (u8 "2015. évi XXIV. törvény", [
    FReplace (u8 "Владата на Унгарија и Владата на Република Македонија (во натамошниот текст наречени „Страни“),")
      (u8 "Владата на Унгарија и Владата на Република Македонија (во натамошниот текст наречени „Страни”),") None;
    FReplace (u8 "б) „Нарушување на безбедноста“ е чин или пропуст којшто е спротивен на оваа спогодба или на националните")
      (u8 "б) „Нарушување на безбедноста” е чин или пропуст којшто е спротивен на оваа спогодба или на националните") None;
    FReplace (u8 "в) „Потребно е да знае“ е принцип според којшто пристап до одредена класифицирана информација може да")
      (u8 "в) „Потребно е да знае” е принцип според којшто пристап до одредена класифицирана информација може да") None;
    FReplace (u8 "д) „Контрактор“ е физичко или правно лице коешто поседува правна способност да склучува класифицирани")
      (u8 "д) „Контрактор” е физичко или правно лице коешто поседува правна способност да склучува класифицирани") None;
    FReplace (u8 "ȝ) „Национален безбедносен орган“ е органот на соодносната страна којшто е одговорен за заштитата на")
      (u8 "ȝ) „Национален безбедносен орган” е органот на соодносната страна којшто е одговорен за заштитата на") None;
    FReplace (u8 "лица според принципот „потребно е да знае“ и коишто се соодветно овластени за тоа во согласност со")
      (u8 "лица според принципот „потребно е да знае” и коишто се соодветно овластени за тоа во согласност со") None
  ]);
  (u8 "2015. évi XXVII. törvény", [
    FReplace (u8 "szóló Megállapodás által meghatározott MLF hadműveleti elgondolás és hadműveleti képességei által")
      (u8 "szóló Megállapodás” által meghatározott MLF hadműveleti elgondolás és hadműveleti képességei által") None
  ]);
  (u8 "2016. évi CIV. törvény", [
    FReplace (u8 "központi szerv) szövegrész helyébe a „szerv (e fejezet alkalmazásában a továbbiakban: kijelölt szerv)” szöveg,")
      (u8 "központi szerv)” szövegrész helyébe a „szerv (e fejezet alkalmazásában a továbbiakban: kijelölt szerv)” szöveg,") None;
    FReplace (u8 "szövegrész helyébe az „a Kormány által kijelölt szerv (a továbbiakban: nyilvántartó szerv) szöveg,")
      (u8 "szövegrész helyébe az „a Kormány által kijelölt szerv (a továbbiakban: nyilvántartó szerv)” szöveg,") None;
    FReplace (u8 "„35. ellátja a 655/2014/EU rendelet 14. cikke szerinti információs hatósági feladatokat.”")
      (u8 "„35. ellátja a 655/2014/EU rendelet 14. cikke szerinti információs hatósági feladatokat.””") None
  ]);
  (u8 "2016. évi CLXXIX. törvény", [
    FReplace (u8 "tizenöt nappal követő időpontra hívják össze.”")
      (u8 "tizenöt nappal követő időpontra hívják össze.") None
  ]);
  (u8 "2016. évi CLXXXI. törvény", [
    FReplace (u8 "„35/A §. Magyarország diplomáciai és konzuli képviseletének, nemzetközi szervezet mellett működő állandó")
      (u8 "„35/A. § Magyarország diplomáciai és konzuli képviseletének, nemzetközi szervezet mellett működő állandó") None
  ]);
  (u8 "2016. évi CLXXXIV. törvény", [
    FReplace (u8 "„143. § (1) Árvák kiegészítő támogatására jogosult az állomány elhunyt tagjának – ideértve a 224. § (3) bekezdése")
      (u8 "143. § (1) Árvák kiegészítő támogatására jogosult az állomány elhunyt tagjának – ideértve a 224. § (3) bekezdése") None;
    FReplace (u8 "a) az önkéntes tartalékos katona hivatásos, szerződéses, honvéd tisztjelölt vagy honvéd altiszt-jelölt szolgálati")
      (u8 "„a) az önkéntes tartalékos katona hivatásos, szerződéses, honvéd tisztjelölt vagy honvéd altiszt-jelölt szolgálati") None
  ]);
  (u8 "2016. évi CXIII. törvény", [
    FReplace (u8 "e szakterületen kutatómunkát végez;")
      (u8 "e szakterületen kutatómunkát végez;”") None
  ]);
  (u8 "2016. évi LXXI. törvény", [
    FReplace (u8 "Aláírásra került Brüsszelben, 2016. „ ’-án.")
      (u8 "Aláírásra került Brüsszelben, 2016.  ’-án.") None;
    FReplace (u8 "Aláírásra került Brüsszelben, 2016.  ’-án.")
      (u8 "Aláírásra került Brüsszelben, 2016.  ’-án.”") None
  ]);
  (u8 "2016. évi LXXIII. törvény", [
    FReplace (u8 "58. § (1) E törvény – a (2) bekezdésben foglal kivétellel – 2016. augusztus 1-jén lép hatályba.")
      (u8 "58. § (1) E törvény – a (2) bekezdésben foglalt kivétellel – 2016. augusztus 1-jén lép hatályba.") None
  ]);
  (u8 "2016. évi LXXVI. törvény", [
    FReplace (u8 "Szakképzési Hídprogramot” szöveg,”")
      (u8 "Szakképzési Hídprogramot” szöveg,") None
  ]);
  (u8 "2016. évi LXXVII. törvény", [
    FReplace (u8 "(2) A Ptk. 5:96. § (3) bekezdése helyébe következő rendelkezés lép:")
      (u8 "(2) A Ptk. 5:96. § (3) bekezdése helyébe a következő rendelkezés lép:") None
  ]);
  (u8 "2016. évi LXXX. törvény", [
    FReplace (u8 "fenntartott köznevelési intézmény kivételével –,")
      (u8 "fenntartott köznevelési intézmény kivételével –”,") None
  ]);
  (u8 "2016. évi XIV. törvény", [
    FReplace (u8 "Hungary Mongolia“")
      (u8 "Hungary Mongolia”") None
  ]);
  (u8 "2016. évi XLIV. törvény", [
    FReplace (u8 "a kérelmezővel szemben lefolytatott fegyelmi eljárásokat.")
      (u8 "a kérelmezővel szemben lefolytatott fegyelmi eljárásokat.”") None;
    FReplace (u8 "az Európai Könyvvizsgálat-felügyeleti Szervek Bizottságával (a továbbiakban: CEAOB).")
      (u8 "az Európai Könyvvizsgálat-felügyeleti Szervek Bizottságával (a továbbiakban: CEAOB).”") None;
    FReplace (u8 "„68. § (1) Amennyiben a harmadik országbeli illetőséggel rendelkező gazdálkodó (szervezet) átruházható")
      (u8 "68. § (1) Amennyiben a harmadik országbeli illetőséggel rendelkező gazdálkodó (szervezet) átruházható") None
  ]);
  (u8 "2016. évi XXXVIII. törvény", [
    FReplace (u8 "1. 9. § (2) bekezdésében a „7. § (5) bekezdése” szövegrész helyébe a „7. § (10)” bekezdése” szövegrész,")
      (u8 "1. 9. § (2) bekezdésében a „7. § (5) bekezdése” szövegrész helyébe a „7. § (10) bekezdése” szövegrész,") None
  ]);
  (u8 "2017. évi CLXXXII. törvény", [
    FReplace (u8 "közhírré teszi.”")
      (u8 "közhírré teszi.””") None;
    FReplace (u8 "(4) A 18/A. § (1) bekezdés a) pontjában meghatározott bírság legmagasabb összege 500 ezer forint.”")
      (u8 "(4) A 18/A. § (1) bekezdés a) pontjában meghatározott bírság legmagasabb összege 500 ezer forint.””") None
  ]);
  (u8 "2017. évi CLXXXVI. törvény", [
    FReplace (u8 "a vezető tisztségviselő képviseleti jogot nem gyakorol, ez a tény) szöveg,")
      (u8 "a vezető tisztségviselő képviseleti jogot nem gyakorol, ez a tény)” szöveg,") None
  ]);
  (u8 "2017. évi CVII. törvény", [
    FReplace (u8 "2. For the purpose of this Article ”claims for loss of life or personal injury to passengers of a vessel” shall mean any such")
      (u8 "2. For the purpose of this Article “claims for loss of life or personal injury to passengers of a vessel” shall mean any such") None
  ]);
  (u8 "2017. évi CX. törvény", [
    FReplace (u8 "Cộng hòa Xã hội Chủ nghĩa Việt Nam")
      (u8 "Cộng hòa Xã hội Chủ nghĩa Việt Nam”") None
  ]);
  (u8 "2017. évi CXCIII. törvény", [
    FReplace (u8 "„6. életkezdési letéti számla: a kiutaló által a gyermek nevén vezetett nyilvántartási számla;“")
      (u8 "„6. életkezdési letéti számla: a kiutaló által a gyermek nevén vezetett nyilvántartási számla;”") None;
    FReplace (u8 "belföldi gyermek adatszolgáltatás időpontjában nyilvántartott adatai vonatkozásában is teljesíti 2018. március 31-ig.")
      (u8 "belföldi gyermek adatszolgáltatás időpontjában nyilvántartott adatai vonatkozásában is teljesíti 2018. március 31-ig.”") None
  ]);
  (u8 "2017. évi CXCVII. törvény", [
    FReplace (u8 "89. 71/B. § (4) bekezdésében a „vagy ügyész számára” szövegrész helyébe a „vagy az ügyészség számára,")
      (u8 "89. 71/B. § (4) bekezdésében a „vagy ügyész számára” szövegrész helyébe a „vagy az ügyészség számára” szöveg,") None;
    FReplace (u8 "az „az előzetesen letartóztatottat” szövegrész helyébe az „a letartóztatottat szöveg,")
      (u8 "az „az előzetesen letartóztatottat” szövegrész helyébe az „a letartóztatottat” szöveg,") None;
    FReplace (u8 "„26. § (1) A körözési eljárást lefolytató szerv a büntetőeljárásról szóló 2017. évi XC. törvény (a továbbiakban: Be.)")
      (u8 "„26. § (1) A körözési eljárást lefolytató szerv a büntetőeljárásról szóló 2017. évi XC. törvény (a továbbiakban: Be.) 268. §") None;
    FReplace (u8 "268. § (1) bekezdés c) és d) pontja alapján bűncselekmény elkövetésével gyanúsítható, illetve megalapozottan")
      (u8 "(1) bekezdés c) és d) pontja alapján bűncselekmény elkövetésével gyanúsítható, illetve megalapozottan") None;
    FReplace (u8 "„(1) A körözési eljárást lefolytató szerv a Be. 268. § (1) bekezdés a) és b) pontja, valamint a Szabs. tv. 68. §")
      (u8 "„29. § (1) A körözési eljárást lefolytató szerv a Be. 268. § (1) bekezdés a) és b) pontja, valamint a Szabs. tv. 68. §") None
  ]);
  (u8 "2017. évi CXII. törvény", [
    FReplace (u8 "Nr.15.2-2/7034”")
      (u8 "Nr.15.2-2/7034") None
  ]);
  (u8 "2017. évi CXIV. törvény", [
    FReplace (u8 "For the Government of Hungary For the State of Maryland“")
      (u8 "For the Government of Hungary For the State of Maryland”") None;
    FReplace (u8 "Magyarország Kormánya nevében Maryland Állam nevében“")
      (u8 "Magyarország Kormánya nevében Maryland Állam nevében”") None
  ]);
  (u8 "2017. évi CXL. törvény", [
    FReplace (u8 "– a vámkontingensek teljes mennyiségét alkalmazzák.”")
      (u8 "– a vámkontingensek teljes mennyiségét alkalmazzák.””") None
  ]);
  (u8 "2017. évi CXLI. törvény", [
    FReplace (u8 "lényegesen nehezebb lenne.“")
      (u8 "lényegesen nehezebb lenne.”") None;
    FReplace (u8 "Ungarn und die Republik Österreich (im Folgenden: „Vertragsstaaten“),")
      (u8 "Ungarn und die Republik Österreich (im Folgenden: „Vertragsstaaten”),") None;
    FReplace (u8 "der Fassung des Berichtigungsprotokolls vom 12. Juli 2005 (im Folgenden: „Vertrag“) wie folgt zu ändern:")
      (u8 "der Fassung des Berichtigungsprotokolls vom 12. Juli 2005 (im Folgenden: „Vertrag”) wie folgt zu ändern:") None;
    FReplace (u8 "und Bekämpfung der grenzüberschreitenden Kriminalität“")
      (u8 "und Bekämpfung der grenzüberschreitenden Kriminalität”") None;
    FReplace (u8 "(2) In der Präambel des Vertrages wird die Wortfolge „die Republik Ungarn“ durch das Wort „Ungarn“ ersetzt.")
      (u8 "(2) In der Präambel des Vertrages wird die Wortfolge „die Republik Ungarn” durch das Wort „Ungarn” ersetzt.") None;
    FReplace (u8 "(3) In Artikel 25 Absatz 2 der ungarischen Sprachfassung wird die Wortfolge „A Magyar Szerződő Állam“ durch das")
      (u8 "(3) In Artikel 25 Absatz 2 der ungarischen Sprachfassung wird die Wortfolge „A Magyar Szerződő Állam” durch das") None;
    FReplace (u8 "Wort „Magyarország“ ersetzt. In Artikel 25 Absatz 2 der deutschen Sprachfassung wird die Wortfolge „der Republik")
      (u8 "Wort „Magyarország” ersetzt. In Artikel 25 Absatz 2 der deutschen Sprachfassung wird die Wortfolge „der Republik") None;
    FReplace (u8 "Ungarn“ durch das Wort „Ungarn“ ersetzt.")
      (u8 "Ungarn” durch das Wort „Ungarn” ersetzt.") None;
    FReplace (u8 "dessen bevollmächtigte Vertreter.“")
      (u8 "dessen bevollmächtigte Vertreter.”") None;
    FReplace (u8 "andere in deren Auftrag handelnde Justizbehörden.“")
      (u8 "andere in deren Auftrag handelnde Justizbehörden.”") None;
    FReplace (u8 "– der Bundesminister für Inneres.“")
      (u8 "– der Bundesminister für Inneres.”") None;
    FReplace (u8 "fahrplanmäßigen Haltebahnhof.“")
      (u8 "fahrplanmäßigen Haltebahnhof.”") None;
    FReplace (u8 "fremdenpolizeilichen Bereich.“")
      (u8 "fremdenpolizeilichen Bereich.”") None;
    FReplace (u8 "gemeinsam die Schwerpunkte und beraten und stimmen die erforderlichen Maßnahmen ab.“")
      (u8 "gemeinsam die Schwerpunkte und beraten und stimmen die erforderlichen Maßnahmen ab.”") None;
    FReplace (u8 "Sicherheit.“")
      (u8 "Sicherheit.”") None;
    FReplace (u8 "– der Bundesminister für Inneres / Generaldirektion für die öffentliche Sicherheit / Bundeskriminalamt.“")
      (u8 "– der Bundesminister für Inneres / Generaldirektion für die öffentliche Sicherheit / Bundeskriminalamt.”") (Some [u8 "Direktion für Spezialeinheiten,"]);
    FReplace (u8 "Verhinderung oder Aufklärung der strafbaren Handlungen notwendig sind;“")
      (u8 "Verhinderung oder Aufklärung der strafbaren Handlungen notwendig sind;”") None;
    FReplace (u8 "die für den anderen Vertragsstaat von Bedeutung sein könnten, mitgeteilt;“")
      (u8 "die für den anderen Vertragsstaat von Bedeutung sein könnten, mitgeteilt;”") None;
    FReplace (u8 "und Aufklärung einer strafbaren Handlung erforderlich sind.“")
      (u8 "und Aufklärung einer strafbaren Handlung erforderlich sind.”") None;
    FReplace (u8 "innerstaatliche Recht beider Vertragsstaaten es erlaubt,“")
      (u8 "innerstaatliche Recht beider Vertragsstaaten es erlaubt,”") None;
    FReplace (u8 "geregelt.“")
      (u8 "geregelt.”") None;
    FReplace (u8 "Verfügung gestellt hat.“")
      (u8 "Verfügung gestellt hat.”") None;
    FReplace (u8 "Observation darf auf dem Land-, Luft- und Wasserweg durchgeführt werden.“")
      (u8 "Observation darf auf dem Land-, Luft- und Wasserweg durchgeführt werden.”") None;
    FReplace (u8 "– der Bundesminister für Inneres / Generaldirektion für die öffentliche Sicherheit.“")
      (u8 "– der Bundesminister für Inneres / Generaldirektion für die öffentliche Sicherheit.”") None;
    FReplace (u8 "aus einem Drittstaat erfolgen.“")
      (u8 "aus einem Drittstaat erfolgen.”") None;
    FReplace (u8 "– die Landespolizeidirektion Burgenland.“")
      (u8 "– die Landespolizeidirektion Burgenland.”") None;
    FReplace (u8 "Ort anhalten, sowie aus Sicherheitsgründen die Kleidung und das Gepäck dieser Person durchsuchen.“")
      (u8 "Ort anhalten, sowie aus Sicherheitsgründen die Kleidung und das Gepäck dieser Person durchsuchen.”") None;
    FReplace (u8 "ohne zeitliche Begrenzung durchgeführt werden.“")
      (u8 "ohne zeitliche Begrenzung durchgeführt werden.”") None;
    FReplace (u8 "– der Bundesminister für Inneres / Generaldirektion für die öffentliche Sicherheit / Bundeskriminalamt.“")
      (u8 "– der Bundesminister für Inneres / Generaldirektion für die öffentliche Sicherheit / Bundeskriminalamt.”") (Some [u8 "b) auf Seiten der Republik Österreich:"]);
    FReplace (u8 "erschwert würde.“")
      (u8 "erschwert würde.”") None;
    FReplace (u8 "unverzüglich zu beenden.“")
      (u8 "unverzüglich zu beenden.”") None;
    FReplace (u8 "Handlungen anhängig sind, und daher eine Abstimmung der Ermittlungen erforderlich ist.“")
      (u8 "Handlungen anhängig sind, und daher eine Abstimmung der Ermittlungen erforderlich ist.”") None;
    FReplace (u8 "„Die gemeinsame Ermittlungsgruppe kommt im Einzelfall aufgrund einer Vereinbarung der Behörden zustande.“")
      (u8 "„Die gemeinsame Ermittlungsgruppe kommt im Einzelfall aufgrund einer Vereinbarung der Behörden zustande.”") None;
    FReplace (u8 "„f) die Rechte und Pflichten des Beamten der Behörde des anderen Vertragsstaates;“")
      (u8 "„f) die Rechte und Pflichten des Beamten der Behörde des anderen Vertragsstaates;”") None;
    FReplace (u8 "an der im vorliegenden Vertrag geregelten Zusammenarbeit teilnehmen.“")
      (u8 "an der im vorliegenden Vertrag geregelten Zusammenarbeit teilnehmen.”") None;
    FReplace (u8 "– der Bundesminister für Inneres / das Bundesamt zur Korruptionsprävention und Korruptionsbekämpfung.“")
      (u8 "– der Bundesminister für Inneres / das Bundesamt zur Korruptionsprävention und Korruptionsbekämpfung.”") None;
    FReplace (u8 "Kontrollmaßnahmen durch.“")
      (u8 "Kontrollmaßnahmen durch.”") None;
    FReplace (u8 "„Gemischter Streifendienst“")
      (u8 "„Gemischter Streifendienst”") None;
    FReplace (u8 "Handlungen dürfen die Behörden der Vertragsstaaten einen gemischten Streifendienst durchführen.“")
      (u8 "Handlungen dürfen die Behörden der Vertragsstaaten einen gemischten Streifendienst durchführen.”") None;
    FReplace (u8 "„sowie deren Kleidung und Gepäck aus Sicherheitsgründen zu durchsuchen.“")
      (u8 "„sowie deren Kleidung und Gepäck aus Sicherheitsgründen zu durchsuchen.”") None;
    FReplace (u8 "(4) Absätze 1 bis 3 gelten entsprechend für den Schiffsverkehr.“")
      (u8 "(4) Absätze 1 bis 3 gelten entsprechend für den Schiffsverkehr.”") None;
    FReplace (u8 "Vertragsstaates gestattet.“")
      (u8 "Vertragsstaates gestattet.”") None;
    FReplace (u8 "Vertragsstaaten es erlaubt;“")
      (u8 "Vertragsstaaten es erlaubt;”") None;
    FReplace (u8 "Datenantrages anzugeben;“")
      (u8 "Datenantrages anzugeben;”") None;
    FReplace (u8 "Zweck, zugestimmt.“")
      (u8 "Zweck, zugestimmt.”") None;
    FReplace (u8 "– Informationssicherheitskommission.“")
      (u8 "– Informationssicherheitskommission.”") None;
    FReplace (u8 "Eisenbahn- oder Schifffahrtsunternehmens auf deren Nachfrage nachzuweisen.“")
      (u8 "Eisenbahn- oder Schifffahrtsunternehmens auf deren Nachfrage nachzuweisen.”") None;
    FReplace (u8 "entrichten sind, befreit.“")
      (u8 "entrichten sind, befreit.”") None;
    FReplace (u8 "beeinträchtigt und nicht den Rechtsvorschriften des Vertragsstaates, in dem der Einsatz stattfindet, widerspricht.“")
      (u8 "beeinträchtigt und nicht den Rechtsvorschriften des Vertragsstaates, in dem der Einsatz stattfindet, widerspricht.”") None;
    FReplace (u8 "den Durchgangsverkehr das Recht des Durchgangsstaats Anwendung.“")
      (u8 "den Durchgangsverkehr das Recht des Durchgangsstaats Anwendung.”") None
  ]);
  (u8 "2017. évi CXLIII. törvény", [
    FReplace (u8 "„(1) A 32/A. § (1) bekezdés alapján hozott határozat három napon belül közigazgatási perben megtámadható.")
      (u8 "„32/B. § (1) A 32/A. § (1) bekezdés alapján hozott határozat három napon belül közigazgatási perben megtámadható.") None
  ]);
  (u8 "2017. évi CXV. törvény", [
    FReplace (u8 "”AGREEMENT BETWEEN THE GOVERNMENT OF HUNGARY AND THE GOVERNMENT OF THE REPUBLIC OF")
      (u8 "“AGREEMENT BETWEEN THE GOVERNMENT OF HUNGARY AND THE GOVERNMENT OF THE REPUBLIC OF") None
  ]);
  (u8 "2017. évi CXVI. törvény", [
    FReplace (u8 "”AGREEMENT BETWEEN THE GOVERNMENT OF HUNGARY AND THE GOVERNMENT OF THE REPUBLIC OF")
      (u8 "“AGREEMENT BETWEEN THE GOVERNMENT OF HUNGARY AND THE GOVERNMENT OF THE REPUBLIC OF") None
  ]);
  (u8 "2017. évi CXX. törvény", [
    FReplace (u8 "jogaira, díjazására és a mintaoltalmi igényre szöveg, a „személyhez fűződő jogaira és a szabadalmi igényre”")
      (u8 "jogaira, díjazására és a mintaoltalmi igényre” szöveg, a „személyhez fűződő jogaira és a szabadalmi igényre”") None
  ]);
  (u8 "2017. évi CXXX. törvény", [
    FReplace (u8 "4. 34. § (2) és (4) bekezdésében a „kérelmet elutasító végzés” szövegrész helyébe a kérelmet elutasító vagy")
      (u8 "4. 34. § (2) és (4) bekezdésében a „kérelmet elutasító végzés” szövegrész helyébe a „kérelmet elutasító vagy") None
  ]);
  (u8 "2017. évi CXXXIV. törvény", [
    FReplace (u8 "telekalakítási, illetve építési tilalmat elrendelni.”")
      (u8 "telekalakítási, illetve építési tilalmat elrendelni.””") None
  ]);
  (u8 "2017. évi L. törvény", [
    FReplace (u8 "a) megtiltja a további foglalkoztatást, ha az alkalmazás vagy a foglalkoztatás a 3. § (1) bekezdés a) pontjának első")
      (u8 "„a) megtiltja a további foglalkoztatást, ha az alkalmazás vagy a foglalkoztatás a 3. § (1) bekezdés a) pontjának első") None;
    FReplace (u8 "„53/A. § Az építésügyi és építésfelügyeleti eljárásokban az eljáró hatóság és szakhatóság az eljárást és annak eljárási")
      (u8 "53/A. § Az építésügyi és építésfelügyeleti eljárásokban az eljáró hatóság és szakhatóság az eljárást és annak eljárási") None;
    FReplace (u8 "c) 28. § (1) bekezdésében a „jogerős” szövegrész helyébe a „végleges szöveg,")
      (u8 "c) 28. § (1) bekezdésében a „jogerős” szövegrész helyébe a „végleges” szöveg,") None;
    FReplace (u8 "során.")
      (u8 "során.”") (Some [u8 "j) hatósági bizonyítvány kiállítása"]);
    FReplace (u8 "alá vett szöveg, a „lefoglalást” szövegrész helyébe a „zár alá vételt” szöveg")
      (u8 "alá vett” szöveg, a „lefoglalást” szövegrész helyébe a „zár alá vételt” szöveg") None;
    FReplace (u8 "(3) Ha harmadik személy javára a Földforgalmi törvényen, más törvényen vagy megállapodáson alapuló elővásárlási")
      (u8 "„(3) Ha harmadik személy javára a Földforgalmi törvényen, más törvényen vagy megállapodáson alapuló elővásárlási") None;
    FReplace (u8 "(rendeletben határozza meg.)")
      (u8 "(rendeletben határozza meg.)”") (Some [u8 "jóváhagyott információhordozók és feladathordozók tankönyvvé nyilvánításának rendjét"]);
    FReplace (u8 "p) a bizalmi felügyelet által vezetett nyilvántartás tartalmával és a bizalmi szolgáltatás nyújtásával összefüggő")
      (u8 "„p) a bizalmi felügyelet által vezetett nyilvántartás tartalmával és a bizalmi szolgáltatás nyújtásával összefüggő") None;
    FReplace (u8 "a) 7. § (9) bekezdésében a „jogerős” szövegrész helyébe a „végleges, a „jogerősen alkalmazott” szövegrész")
      (u8 "a) 7. § (9) bekezdésében a „jogerős” szövegrész helyébe a „végleges”, a „jogerősen alkalmazott” szövegrész") None;
    FReplace (u8 "megállapított – 182. § (1) bekezdés g) pontja.”")
      (u8 "megállapított – 182. § (1) bekezdés g) pontja.") None;
    FReplace (u8 "„31. § (1) A Hatóság eljárásainak ügyintézési határideje – amennyiben e törvény eltérő szabályokat nem állapít")
      (u8 "31. § (1) A Hatóság eljárásainak ügyintézési határideje – amennyiben e törvény eltérő szabályokat nem állapít") None;
    FReplace (u8 "a „jogerőre emelkedésének” szövegrész helyébe a véglegessé válásának” szöveg,")
      (u8 "a „jogerőre emelkedésének” szövegrész helyébe a „véglegessé válásának” szöveg,") None;
    FReplace (u8 "„(2) Az atomenergia-felügyeleti szerv eljárásában hiánypótlásra felhívásnak több ízben helye van.")
      (u8 "„(2) Az atomenergia-felügyeleti szerv eljárásában hiánypótlásra felhívásnak több ízben helye van.”") None;
    FReplace (u8 "d) a döntés szóban nem közölhető.")
      (u8 "d) a döntés szóban nem közölhető.”") None;
    FReplace (u8 "xi) a radioaktív anyagok birtoklása, előállítása, termelése, kezelése, feldolgozása, forgalmazása, tárolása,")
      (u8 "„xi) a radioaktív anyagok birtoklása, előállítása, termelése, kezelése, feldolgozása, forgalmazása, tárolása,") None;
    FReplace (u8 "a) 11/A. § (2d) bekezdésében a „de legalább a (2c) bekezdésben meghatározott terület” szövegrész.”")
      (u8 "a) 11/A. § (2d) bekezdésében a „de legalább a (2c) bekezdésben meghatározott terület” szövegrész.") None;
    FReplace (u8 "g) 31/B. § (2d) bekezdésében a „jogerőre emelkedésétől” szövegrész helyébe a „véglegessé válásától szöveg,")
      (u8 "g) 31/B. § (2d) bekezdésében a „jogerőre emelkedésétől” szövegrész helyébe a „véglegessé válásától” szöveg,") None;
    FReplace (u8 "helyébe a közhírré teszi” szöveg,")
      (u8 "helyébe a „közhírré teszi” szöveg,") None;
    FReplace (u8 "vagyonvédelmi, valamint magánnyomozói tevékenységre vonatkozó közigazgatási hatósági eljárási szabályokat")
      (u8 "vagyonvédelmi, valamint magánnyomozói tevékenységre vonatkozó közigazgatási hatósági eljárási szabályokat”") None;
    FReplace (u8 "szerinti bűncselekményi kör tekintetében büntetlen előéletű.”")
      (u8 "szerinti bűncselekményi kör tekintetében büntetlen előéletű.") None;
    FReplace (u8 "a „honlapján közhírré tesz” szöveg, a „hirdetmény” szövegrész helyébe a „közhírré tett közlemény szöveg,")
      (u8 "a „honlapján közhírré tesz” szöveg, a „hirdetmény” szövegrész helyébe a „közhírré tett közlemény” szöveg,") None;
    FReplace (u8 "(1b) A klímavédelemért felelős hatóság ellenőrzésre jogosult alkalmazottja (a továbbiakban: ellenőr) az ellenőrzés,")
      (u8 "„(1b) A klímavédelemért felelős hatóság ellenőrzésre jogosult alkalmazottja (a továbbiakban: ellenőr) az ellenőrzés,") None;
    FReplace (u8 "szóló 2016. évi CL. törvény (a továbbiakban: Ákr.) szöveg,")
      (u8 "szóló 2016. évi CL. törvény (a továbbiakban: Ákr.)” szöveg,") None;
    FReplace (u8 "b) 17. § (2) bekezdésében a „jogerős” szövegrész helyébe a „véglegessé vált” szöveg, a bírósági” szövegrész")
      (u8 "b) 17. § (2) bekezdésében a „jogerős” szövegrész helyébe a „véglegessé vált” szöveg, a „bírósági” szövegrész") None
  ]);
  (u8 "2017. évi LXI. törvény", [
    FReplace (u8 "az engedély kiadásához vagy a nyilvántartásba vételhez szükséges feltételek már nem állnak fenn.”")
      (u8 "az engedély kiadásához vagy a nyilvántartásba vételhez szükséges feltételek már nem állnak fenn.") None
  ]);
  (u8 "2017. évi LXIV. törvény", [
    FReplace (u8 "45. § (1) Ez a törvény a – a (2)–(4) bekezdésben foglalt kivétellel – a kihirdetését követő nyolcadik napon lép hatályba.")
      (u8 "45. § (1) Ez a törvény – a (2)–(4) bekezdésben foglalt kivétellel – a kihirdetését követő nyolcadik napon lép hatályba.") None
  ]);
  (u8 "2017. évi LXVIII. törvény", [
    FReplace (u8 "d) 41. § (5) bekezdésében az ”Az állami vagy önkormányzati fenntartású előadó-művészeti” szövegrész helyébe")
      (u8 "d) 41. § (5) bekezdésében az „Az állami vagy önkormányzati fenntartású előadó-művészeti” szövegrész helyébe") None
  ]);
  (u8 "2017. évi XXXV. törvény", [
    FReplace (u8 "to MÁV Zrt.”")
      (u8 "to MÁV Zrt.") None;
    FReplace (u8 "board of directors or other officer indicated in the General Contractor’s statutes.”")
      (u8 "board of directors or other officer indicated in the General Contractor’s statutes.") None;
    FReplace (u8 "MÁV Zrt.”")
      (u8 "MÁV Zrt.") None;
    FReplace (u8 "“Tpvt.”: Act LVII of 1996 on the prohibition of unfair market practices and restriction of competition.”")
      (u8 "“Tpvt.”: Act LVII of 1996 on the prohibition of unfair market practices and restriction of competition.") None;
    FReplace (u8 "szerződések alapján megszerzett jogok és kötelezettségek tekintetében a MÁV Zrt.”")
      (u8 "szerződések alapján megszerzett jogok és kötelezettségek tekintetében a MÁV Zrt.") None;
    FReplace (u8 "tisztségviselőjére delegálhatja.”")
      (u8 "tisztségviselőjére delegálhatja.") None;
    FReplace (u8 "„Hirdetmény”: a TED-ben (Tenders Electronic Daily) és a MÁV Zrt. honlapján közzétett Felhívás.”")
      (u8 "„Hirdetmény”: a TED-ben (Tenders Electronic Daily) és a MÁV Zrt. honlapján közzétett Felhívás.") None;
    FReplace (u8 "„Tpvt.”: a tisztességtelen piaci magatartás és a versenykorlátozás tilalmáról szóló 1996. évi LVII. törvény.”")
      (u8 "„Tpvt.”: a tisztességtelen piaci magatartás és a versenykorlátozás tilalmáról szóló 1996. évi LVII. törvény.") None;
    FReplace (u8 "nevében és javára képviselőként eljáró Fővállalkozó.”")
      (u8 "nevében és javára képviselőként eljáró Fővállalkozó.") None
  ]);
  (u8 "2018. évi CXIV. törvény", [
    FReplace (u8 "b) az „E’’, „F’’, „G’’, „H’’, „I’’, „J’’ fizetési osztályban említett munkakör betöltése esetén évi huszonegy munkanap")
      (u8 "b) az „E”, „F”, „G”, „H”, „I”, „J” fizetési osztályban említett munkakör betöltése esetén évi huszonegy munkanap") None
  ]);
  (u8 "2018. évi CXV. törvény", [
    FReplace (u8 "„A rendvédelmi feladatokat ellátó szervek hivatásos állományának szolgálati jogviszonyáról szóló 2015. évi")
      (u8 "„65/L. § A rendvédelmi feladatokat ellátó szervek hivatásos állományának szolgálati jogviszonyáról szóló 2015. évi") None;
    FReplace (u8 "XLII. törvény és más kapcsolódó törvények módosításáról szóló 2018. évi CXV. törvény (a továbbiakban: Riasztv.)")
      (u8 "XLII. törvény és más kapcsolódó törvények módosításáról szóló 2018. évi CXV. törvény (a továbbiakban: Riasztv.) 27. § (1)") None;
    FReplace (u8 "27. § (1) bekezdésével módosított 5. § (1) bekezdés a) pontját és a Riasztv. 27. § (2) bekezdésével módosított 15. §")
      (u8 "bekezdésével módosított 5. § (1) bekezdés a) pontját és a Riasztv. 27. § (2) bekezdésével módosított 15. §") None
  ]);
  (u8 "2018. évi CXXI. törvény", [
    FReplace (u8 "lép.”")
      (u8 "lép.") None
  ]);
  (u8 "2018. évi CXXV. törvény", [
    FReplace (u8 "e) 25/C. § (12) bekezdésében a „ , vagy állami szolgálati” szövegrész.”")
      (u8 "e) 25/C. § (12) bekezdésében a „ , vagy állami szolgálati” szövegrész.") None;
    FReplace (u8 "betöltő személy is helyettesítheti.” szöveg lép.”")
      (u8 "betöltő személy is helyettesítheti.” szöveg lép.") None;
    FReplace (u8 "a célhoz köthető feladat eredményes végrehajtásáért céljuttatásra jogosult.””")
      (u8 "a célhoz köthető feladat eredményes végrehajtásáért céljuttatásra jogosult.”") None
  ]);
  (u8 "2018. évi LI. törvény", [
    FReplace (u8 "Maďarsko a Slovenská republika (ďalej len „zmluvné strany“),")
      (u8 "Maďarsko a Slovenská republika (ďalej len „zmluvné strany”),") None;
    FReplace (u8 "slovenskej hraničnej čiary – hraničné úseky č. III., IV. a VIII. – 2013“, ktorý ako príloha tejto zmluvy tvorí jej")
      (u8 "slovenskej hraničnej čiary – hraničné úseky č. III., IV. a VIII. – 2013”, ktorý ako príloha tejto zmluvy tvorí jej") None;
    FReplace (u8 "MAĎARSKO SLOVENSKÚ REPUBLIKU“")
      (u8 "MAĎARSKO SLOVENSKÚ REPUBLIKU”") None
  ]);
  (u8 "2018. évi LII. törvény", [
    FReplace (u8 "3. a szociális igazgatásról és szociális ellátásokról szóló 1993. évi III. törvény 4. § (1c) pontjában az „egészségügyi")
      (u8 "3. a szociális igazgatásról és szociális ellátásokról szóló 1993. évi III. törvény 4. § (1c) bekezdésében az „egészségügyi") None
  ]);
  (u8 "2019. évi CIX. törvény", [
    FReplace (u8 "„77. §/A. § (1) Az MKK folyamatos működésének biztosítása érdekében a központi költségvetésről szóló törvényben")
      (u8 "„77/A. § (1) Az MKK folyamatos működésének biztosítása érdekében a központi költségvetésről szóló törvényben") None
  ]);
  (u8 "2019. évi CX. törvény", [
    FReplace (u8 "kormányhivatal” szöveg lép.”")
      (u8 "kormányhivatal” szöveg lép.") None
  ]);
  (u8 "2019. évi CXII. törvény", [
    FReplace (u8 "„44a. képzés: a 22/C. § alkalmazásában olyan oktatást tartalmazó képzés, amely nem kizárólag vagy nem")
      (u8 "„44/a. képzés: a 22/C. § alkalmazásában olyan oktatást tartalmazó képzés, amely nem kizárólag vagy nem") None
  ]);
  (u8 "2020. évi V. törvény", [
    FReplace (u8 "12. § A Btk. XIX. fejezete a következő alcímmel egészül ki:")
      (u8 "12. § A Btk. a következő alcímmel és 207/A. §-al egészül ki:") None
  ])
].
