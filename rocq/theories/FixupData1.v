(* The table of replacements, first part: hun_law/fixups/replacement_fixups.py:8-1012. *)
From Verif Require Import PyBase FixupEntries.

(* replacement_fixups.py:8-1012, in the order of the file *)
Definition replacements1 : list (pystr * list fixup_entry) := [
  (u8 "2010. évi CLIII. törvény", [
    FReplace (u8 "a „15 munkanapon belül” szöveg, valamint 140. § (6) bekezdésében a 8 munkanapon belül” szövegrész helyébe")
      (u8 "a „15 munkanapon belül” szöveg, valamint 140. § (6) bekezdésében a „8 munkanapon belül” szövegrész helyébe") None
  ]);
  (u8 "2010. évi CLIX. törvény", [
    FReplace (u8 "résztvevő a rendszerüzemeltető számára ismert;”")
      (u8 "résztvevő a rendszerüzemeltető számára ismert;") None
  ]);
  (u8 "2010. évi CLXXII. törvény", [
    FReplace (u8 "tesz közzé.”")
      (u8 "tesz közzé.") None;
    FReplace (u8 "vonatokról, valamint vasúti állomásról és megállóhelyről a szolgáltató a honlapján tájékoztatást tesz közzé.”")
      (u8 "vonatokról, valamint vasúti állomásról és megállóhelyről a szolgáltató a honlapján tájékoztatást tesz közzé.") None;
    FReplace (u8 "szövegrész helyébe a „miniszterrel egyetértésben” szöveg, 74. § (1) bekezdés m) pontjában az „is – „ szövegrész")
      (u8 "szövegrész helyébe a „miniszterrel egyetértésben” szöveg, 74. § (1) bekezdés m) pontjában az „is – ” szövegrész") None;
    FReplace (u8 "helyébe az – egyetértésben” szöveg, 74. § (2) bekezdés k) és l) pontjában a „miniszter az” szövegrész helyébe")
      (u8 "helyébe az „– egyetértésben” szöveg, 74. § (2) bekezdés k) és l) pontjában a „miniszter az” szövegrész helyébe") None
  ]);
  (u8 "2010. évi CLXXIII. törvény", [
    FReplace (u8 "a „jelölt tag” szövegrész helyébe a „kinevezett tag” szöveg lép.”")
      (u8 "a „jelölt tag” szövegrész helyébe a „kinevezett tag” szöveg lép.") None
  ]);
  (u8 "2010. évi CLXXX. törvény", [
    FReplace (u8 "jogosult, ha a szerződésében a teljes önkéntesség tényét nem rögzítette.”")
      (u8 "jogosult, ha a szerződésében a teljes önkéntesség tényét nem rögzítette.") None
  ]);
  (u8 "2010. évi CLXXXIII. törvény", [
    FReplace (u8 "(4) E törvény 67. §-a, 165. § (2) bekezdés e) és f) pontja 2011. szeptember 1-jén lép hatályba.”")
      (u8 "(4) E törvény 67. §-a, 165. § (2) bekezdés e) és f) pontja 2011. szeptember 1-jén lép hatályba.") None
  ]);
  (u8 "2010. évi CXLVIII. törvény", [
    FReplace (u8 "(7) bekezdésében a „huszonkét” szövegrész helyébe a „harminc” szöveg lép.”")
      (u8 "(7) bekezdésében a „huszonkét” szövegrész helyébe a „harminc” szöveg lép.") None
  ]);
  (u8 "2011. évi CCIX. törvény", [
    FReplace (u8 "alkalmazni.”")
      (u8 "alkalmazni.””") None
  ]);
  (u8 "2011. évi CCVII. törvény", [
    FReplace (u8 "g) 2. számú melléklet 10. pontja.”")
      (u8 "g) 2. számú melléklet 10. pontja.") None
  ]);
  (u8 "2011. évi CLIV. törvény", [
    FReplace (u8 "g) 92. § (3) bekezdés első mondatában az ”, illetve a megyei önkormányzat a településen, illetve a megyében”")
      (u8 "g) 92. § (3) bekezdés első mondatában az „, illetve a megyei önkormányzat a településen, illetve a megyében”") None;
    FReplace (u8 "j) 89/B. § (7) bekezdésében a „megyei önkormányzat” szövegrész helyébe a Kormány általános hatáskörű területi")
      (u8 "j) 89/B. § (7) bekezdésében a „megyei önkormányzat” szövegrész helyébe a „Kormány általános hatáskörű területi") None
  ]);
  (u8 "2011. évi CLXI. törvény", [
    FReplace (u8 ",,A munkaköri kötelességeimet részrehajlás nélkül, lelkiismeretesen, kizárólag a jogszabályoknak megfelelően,")
      (u8 "„A munkaköri kötelességeimet részrehajlás nélkül, lelkiismeretesen, kizárólag a jogszabályoknak megfelelően,") None
  ]);
  (u8 "2011. évi CLXII. törvény", [
    FReplace (u8 ",,Fogadom, hogy a rám bízott ügyeket tisztességes eljárásban, részrehajlás nélkül, lelkiismeretesen, kizárólag")
      (u8 "„Fogadom, hogy a rám bízott ügyeket tisztességes eljárásban, részrehajlás nélkül, lelkiismeretesen, kizárólag") None
  ]);
  (u8 "2011. évi CLXVI. törvény", [
    FReplace (u8 "„(A kiadások fedezetét a következő bevételek képezik:")
      (u8 "(A kiadások fedezetét a következő bevételek képezik:") None
  ]);
  (u8 "2011. évi CLXX. törvény", [
    FReplace (u8 "(2) Az 1–25. §, a 27. § és az 1. melléklet 2012. január 1-jén lép hatályba.”")
      (u8 "(2) Az 1–25. §, a 27. § és az 1. melléklet 2012. január 1-jén lép hatályba.") None
  ]);
  (u8 "2011. évi CLXXII. törvény", [
    FReplace (u8 "a bi) alpontjában a „Magyar Köztársaság” szövegrész helyébe a „Magyarország” szöveg lép.”")
      (u8 "a bi) alpontjában a „Magyar Köztársaság” szövegrész helyébe a „Magyarország” szöveg lép.") None
  ]);
  (u8 "2011. évi CLXXIII. törvény", [
    FReplace (u8 "„kihirdetésétől” szövegrész helyébe a „kézbesítésétől” szöveg lép.”")
      (u8 "„kihirdetésétől” szövegrész helyébe a „kézbesítésétől” szöveg lép.") None
  ]);
  (u8 "2011. évi CLXXV. törvény", [
    FReplace (u8 "„ „45. § A Tao tv. a következő 29/Q. §-sal egészül ki:")
      (u8 "„45. § A Tao tv. a következő 29/Q. §-sal egészül ki:") None;
    FReplace (u8 "szöveg lép .")
      (u8 "szöveg lép .”") None
  ]);
  (u8 "2011. évi CLXXVI. törvény", [
    FReplace (u8 "(3) bekezdésében foglaltakon túl – „ szövegrész helyébe az „– az 5/A. § (3) bekezdésében és (11) bekezdésének")
      (u8 "(3) bekezdésében foglaltakon túl – ” szövegrész helyébe az „– az 5/A. § (3) bekezdésében és (11) bekezdésének") None;
    FReplace (u8 "g) 4. számú melléklete.”")
      (u8 "g) 4. számú melléklete.") None
  ]);
  (u8 "2011. évi CLXXXIV. törvény", [
    FReplace (u8 "helyébe a ”kormányzati szolgálati, közszolgálati, vagy” szöveg,")
      (u8 "helyébe a „kormányzati szolgálati, közszolgálati, vagy” szöveg,") None
  ]);
  (u8 "2011. évi CV. törvény", [
    FReplace (u8 "b) ha egyenlőtlen munkaidő-beosztásban kíván dolgozni, a munkaidő-beosztásra vonatkozó javaslatáról.”")
      (u8 "b) ha egyenlőtlen munkaidő-beosztásban kíván dolgozni, a munkaidő-beosztásra vonatkozó javaslatáról.") None;
    FReplace (u8 "történő foglalkoztatásnak a Módtv. hatálybalépését követően ledolgozott időtartama tekintetében kell alkalmazni.”")
      (u8 "történő foglalkoztatásnak a Módtv. hatálybalépését követően ledolgozott időtartama tekintetében kell alkalmazni.") None
  ]);
  (u8 "2011. évi CVI. törvény", [
    FReplace (u8 "(6) bekezdésében, valamint 37/C. § (8) bekezdés a) pontjában a ”bérpótló juttatásra” szövegrész helyébe")
      (u8 "(6) bekezdésében, valamint 37/C. § (8) bekezdés a) pontjában a „bérpótló juttatásra” szövegrész helyébe") None
  ]);
  (u8 "2011. évi CVII. törvény", [
    FReplace (u8 "szempontjából nem megfelelő, akkor annak üzemben tartóját terhelik.”")
      (u8 "szempontjából nem megfelelő, akkor annak üzemben tartóját terhelik.") None;
    FReplace (u8 "49/a. Helymeghatározási szolgáltatás: olyan kapcsolódó szolgáltatás, amelyet az előfizető vagy felhasználó")
      (u8 "„49/a. Helymeghatározási szolgáltatás: olyan kapcsolódó szolgáltatás, amelyet az előfizető vagy felhasználó") None;
    FReplace (u8 "szöveg,”, a 31. § (3) bekezdésében „Az (1)–(2) bekezdésben” szövegrész helyébe „A (2) bekezdésben” szöveg, a 33. §")
      (u8 "szöveg, a 31. § (3) bekezdésében „Az (1)–(2) bekezdésben” szövegrész helyébe „A (2) bekezdésben” szöveg, a 33. §") None;
    FReplace (u8 "rendelkezések alkalmazandók.”")
      (u8 "rendelkezések alkalmazandók.") None
  ]);
  (u8 "2011. évi CXCIII. törvény", [
    FReplace (u8 "megszüntetéséről a befektetési alapkezelő dönt, amelynek során az ”IL” sorozatjelű befektetési jegyeket az alap")
      (u8 "megszüntetéséről a befektetési alapkezelő dönt, amelynek során az „IL” sorozatjelű befektetési jegyeket az alap") None;
    FReplace (u8 "a „2011. december 31-ig” szövegrész helyébe a „2012. június 30-ig” szöveg lép.”")
      (u8 "a „2011. december 31-ig” szövegrész helyébe a „2012. június 30-ig” szöveg lép.") None;
    FReplace (u8 "hatósági felügyeleti,” szöveg lép.”")
      (u8 "hatósági felügyeleti,” szöveg lép.") None;
    FReplace (u8 "valamint e szolgáltatások fedezetéről szóló 1997. évi LXXX. törvény 3. § (2) bekezdése szerinti kötelezettségét.”")
      (u8 "valamint e szolgáltatások fedezetéről szóló 1997. évi LXXX. törvény 3. § (2) bekezdése szerinti kötelezettségét.””") None
  ]);
  (u8 "2011. évi CXCVII. törvény", [
    FReplace (u8 "bocsátott vagyonból.”")
      (u8 "bocsátott vagyonból.") (Some [u8 "biztosíték teljesítéséért a vezetőtől való behajthatatlanság esetén kezesként felel. A külföldi székhelyű vállalkozás"; u8 "az említett kezesi kötelezettségéből eredő fizetési kötelezettségét nem teljesítheti a fióktelepe rendelkezésére"]);
    FReplace (u8 "(8) bekezdése.”")
      (u8 "(8) bekezdése.") None
  ]);
  (u8 "2011. évi CXLIV. törvény", [
    FReplace (u8 "Ireland signed at Budapest on 28th November 1977 (”the prior Convention”) shall cease to be effective from the dates")
      (u8 "Ireland signed at Budapest on 28th November 1977 („the prior Convention”) shall cease to be effective from the dates") None
  ]);
  (u8 "2011. évi CXLV. törvény", [
    FReplace (u8 """C O N V E N T I O N")
      (u8 "„C O N V E N T I O N") None
  ]);
  (u8 "2011. évi CXXV. törvény", [
    FReplace (u8 "a 2012. január–március tárgynegyedévre kell alkalmazni.”")
      (u8 "a 2012. január–március tárgynegyedévre kell alkalmazni.") (Some [u8 "CXXV. törvénnyel megállapított 33. § (2), (3), (6) bekezdéseit 2012. január 1. napjától és első alkalommal"])
  ]);
  (u8 "2011. évi CXXXVI. törvény", [
    FReplace (u8 "2. § Az Országgyűlés Szigetvár városnak a „Leghősiesebb Város” ( „Civitas Invicta"") címet adományozza.")
      (u8 "2. § Az Országgyűlés Szigetvár városnak a „Leghősiesebb Város” ( „Civitas Invicta”) címet adományozza.") None
  ]);
  (u8 "2011. évi LIX. törvény", [
    FReplace (u8 "szövegrész.”")
      (u8 "szövegrész.") None;
    FReplace (u8 "(17) A VET. 171/A. §-a 2012. szeptember 30-án hatályát veszti.”")
      (u8 "(17) A VET. 171/A. §-a 2012. szeptember 30-án hatályát veszti.") None
  ]);
  (u8 "2011. évi LXV. törvény", [
    FReplace (u8 "Szlovén Köztársaság A 20. cikkben kijelölt szolgálatok")
      (u8 "Szlovén Köztársaság A 20. cikkben kijelölt szolgálatok”") None
  ]);
  (u8 "2011. évi LXXXIV. törvény", [
    FReplace (u8 "a silent partner ( „stiller Gesellschafter“) from his participation as such, or from a loan with an interest rate linked to")
      (u8 "a silent partner ( „stiller Gesellschafter”) from his participation as such, or from a loan with an interest rate linked to") None;
    FReplace (u8 "borrower’s profit ( „partiarisches Darlehen“) or from profit sharing bonds ( „Gewinnobligationen“) within")
      (u8 "borrower’s profit ( „partiarisches Darlehen”) or from profit sharing bonds ( „Gewinnobligationen”) within") None
  ]);
  (u8 "2011. évi LXXXVI. törvény", [
    FReplace (u8 "(5) E törvény 2012. május 2-án hatályát veszti.”")
      (u8 "(5) E törvény 2012. május 2-án hatályát veszti.") None
  ]);
  (u8 "2011. évi XCVI. törvény", [
    FReplace (u8 "35. § (1) A MódTv. 82. § (1) bekezdésében a „2010. október 31.” szövegrész helyébe a 2011. április 30.” szöveg lép.")
      (u8 "35. § (1) A MódTv. 82. § (1) bekezdésében a „2010. október 31.” szövegrész helyébe a „2011. április 30.” szöveg lép.") None;
    FReplace (u8 "Zsigmond Király Főiskola, Budapest""")
      (u8 "Zsigmond Király Főiskola, Budapest”") None
  ]);
  (u8 "2011. évi XLVI. törvény", [
    FReplace (u8 "kifizetett bevétel, illetve a jogviszony megszűnésekor a magánszemélyt megillető jubileumi jutalom.""")
      (u8 "kifizetett bevétel, illetve a jogviszony megszűnésekor a magánszemélyt megillető jubileumi jutalom.”") None
  ]);
  (u8 "2011. évi XXIII. törvény", [
    FReplace (u8 "helyébe az „az aktív korúak ellátására való jogosultság keretében megállapított pénzbeli ellátásban” szöveg lép.”")
      (u8 "helyébe az „az aktív korúak ellátására való jogosultság keretében megállapított pénzbeli ellátásban” szöveg lép.") None
  ]);
  (u8 "2011. évi XXIX. törvény", [
    FReplace (u8 "vonható vissza.”")
      (u8 "vonható vissza.") None;
    FReplace (u8 "alkalmazni.”")
      (u8 "alkalmazni.") (Some [u8 "biztosítása érdekében – a 102/A. § (3) bekezdés a) pontját és a 102/B. § (1) és (2) bekezdését kell megfelelően"]);
    FReplace (u8 "alkalmazható.”")
      (u8 "alkalmazható.") (Some [u8 "megfelel az e §-ban foglaltaknak, a Hivatal határozatának jogerőre emelkedését követően a 102. §–102/E. § nem"]);
    FReplace (u8 "(5) bekezdése, 178. § (7) bekezdése, 181. § (3) és (4) bekezdése, 183. §-a.”")
      (u8 "(5) bekezdése, 178. § (7) bekezdése, 181. § (3) és (4) bekezdése, 183. §-a.") None;
    FReplace (u8 "í) dönt a szállítási rendszerüzemeltető és a vertikálisan integrált földgázipari vállalkozás, valamint a 119/A. §")
      (u8 "„í) dönt a szállítási rendszerüzemeltető és a vertikálisan integrált földgázipari vállalkozás, valamint a 119/A. §") None
  ]);
  (u8 "2012. évi CCIX. törvény", [
    FReplace (u8 "(11) Az Ogytv. 29. § (9) bekezdésében a „48. § (3)–(5)” szövegrész helyébe a „48. § (3)–(7)” szöveg lép”")
      (u8 "(11) Az Ogytv. 29. § (9) bekezdésében a „48. § (3)–(5)” szövegrész helyébe a „48. § (3)–(7)” szöveg lép") None
  ]);
  (u8 "2012. évi CCVIII. törvény", [
    FReplace (u8 "szöveg lép.”")
      (u8 "szöveg lép.") (Some [u8 "CXXVIII. törvény 17/A. § (1) bekezdésében a „18. § (7) bekezdése” szövegrész helyébe a „18. § (6) bekezdés b)–c) pontja”"]);
    FReplace (u8 "szöveg lép.”")
      (u8 "szöveg lép.") None
  ]);
  (u8 "2012. évi CCX. törvény", [
    FReplace (u8 ",,(5) A 2. § (2) bekezdése és az 5. § (2) bekezdése szerint megkötött megállapodások, továbbá az 5. § (5) bekezdése")
      (u8 "„(5) A 2. § (2) bekezdése és az 5. § (2) bekezdése szerint megkötött megállapodások, továbbá az 5. § (5) bekezdése") None
  ]);
  (u8 "2012. évi CCXII. törvény", [
    FReplace (u8 "szolgáltatásra jogosult személyt"" szöveg,")
      (u8 "szolgáltatásra jogosult személyt” szöveg,") None;
    FReplace (u8 "5/A. § (1) Az 5. § (1) bekezdésben meghatározott szerződéseknek az 5. § (1) bekezdés alapján történő felmondása")
      (u8 "„5/A. § (1) Az 5. § (1) bekezdésben meghatározott szerződéseknek az 5. § (1) bekezdés alapján történő felmondása") None
  ]);
  (u8 "2012. évi CIV. törvény", [
    FReplace (u8 "a) 7. § (4) bekezdésében a „jogszerűségét igazolni” szövegrész helyébe a jogszerűségéről nyilatkozni” szöveg,")
      (u8 "a) 7. § (4) bekezdésében a „jogszerűségét igazolni” szövegrész helyébe a „jogszerűségéről nyilatkozni” szöveg,") None;
    FReplace (u8 "d) 27. § (4) bekezdés b) pont bd) alpontjában a „nevét (cégét), lakóhelyét (székhelyét) „ szövegrész helyébe a „nevét,")
      (u8 "d) 27. § (4) bekezdés b) pont bd) alpontjában a „nevét (cégét), lakóhelyét (székhelyét) ” szövegrész helyébe a „nevét,") None;
    FReplace (u8 "tartalmazzák megfelelően a 44. §-ban foglalt adatközléshez szükséges adatokat „ szöveg,")
      (u8 "tartalmazzák megfelelően a 44. §-ban foglalt adatközléshez szükséges adatokat ” szöveg,") None;
    FReplace (u8 "f) 39. § (1) bekezdésében a „(3) bekezdésének” szövegrész helyébe a „(2) bekezdésének „ szöveg,")
      (u8 "f) 39. § (1) bekezdésében a „(3) bekezdésének” szövegrész helyébe a „(2) bekezdésének ” szöveg,") None;
    FReplace (u8 "befolyással” szöveg helyébe a „legalább többségi befolyással „ szöveg,")
      (u8 "befolyással” szöveg helyébe a „legalább többségi befolyással ” szöveg,") None;
    FReplace (u8 "c) a Ctv. 53. § (1) bekezdésében a „ha a változás a cég tevékenységi körét érinti, illetve „ szövegrész,")
      (u8 "c) a Ctv. 53. § (1) bekezdésében a „ha a változás a cég tevékenységi körét érinti, illetve ” szövegrész,") None
  ]);
  (u8 "2012. évi CLII. törvény", [
    FReplace (u8 "pénzügyi beszámolót, valamint teljesítményértékelést készít.""")
      (u8 "pénzügyi beszámolót, valamint teljesítményértékelést készít.”") None
  ]);
  (u8 "2012. évi CLIV. törvény", [
    FReplace (u8 "fenntartói jogok gyakorlására rendeletben kijelölt szervezet” szöveg, az „államháztartási törvényben"" szövegrész")
      (u8 "fenntartói jogok gyakorlására rendeletben kijelölt szervezet” szöveg, az „államháztartási törvényben” szövegrész") None;
    FReplace (u8 "c) 40/A. § (1) bekezdésében a „termékenként"" szövegrész helyébe a „készítményenként"" szöveg,")
      (u8 "c) 40/A. § (1) bekezdésében a „termékenként"" szövegrész helyébe a „készítményenként” szöveg,") None;
    FReplace (u8 "támogatásból le kell vonni a „36. § (1)–(2) és (4)–(4a), illetve 40/A. § (1) bekezdésében meghatározott fizetési")
      (u8 "támogatásból le kell vonni a 36. § (1)–(2) és (4)–(4a), illetve 40/A. § (1) bekezdésében meghatározott fizetési") None;
    FReplace (u8 "c) 40/A. § (1) bekezdésében a „termékenként"" szövegrész helyébe a „készítményenként” szöveg,")
      (u8 "c) 40/A. § (1) bekezdésében a „termékenként” szövegrész helyébe a „készítményenként” szöveg,") None
  ]);
  (u8 "2012. évi CLVII. törvény", [
    FReplace (u8 "a beruházó a feltárási engedély iránti kérelméhez csatolja a szerződést."" szöveg,")
      (u8 "a beruházó a feltárási engedély iránti kérelméhez csatolja a szerződést.” szöveg,") None
  ]);
  (u8 "2012. évi CLXX. törvény", [
    FReplace (u8 "hatóság megnevezéséről és címéről, valamint a jogorvoslat lehetőségéről vagy annak hiányáról.“")
      (u8 "hatóság megnevezéséről és címéről, valamint a jogorvoslat lehetőségéről vagy annak hiányáról.”") None
  ]);
  (u8 "2012. évi CLXXVIII. törvény", [
    FReplace (u8 ",,c) a 124. § (1) bekezdésének c) pontjában és (4) bekezdésében említett esetekben igazoltan egészben vagy túlnyomó")
      (u8 "„c) a 124. § (1) bekezdésének c) pontjában és (4) bekezdésében említett esetekben igazoltan egészben vagy túlnyomó") None;
    FReplace (u8 "a személygépkocsi osztály-jelzése: ”6”. Ha a személygépkocsi osztályjelzése a KöHÉM rendelet 2012. augusztus 15-ét")
      (u8 "a személygépkocsi osztály-jelzése: „6”. Ha a személygépkocsi osztályjelzése a KöHÉM rendelet 2012. augusztus 15-ét") None;
    FReplace (u8 "17. tartozás: a magyar állami adó-, illetve vámhatóságnál – engedély nélkül – az előírt vagy a fizetési felszólításban")
      (u8 "„17. tartozás: a magyar állami adó-, illetve vámhatóságnál – engedély nélkül – az előírt vagy a fizetési felszólításban") None;
    FReplace (u8 "benyújtásával egyidejűleg nem fizeti meg az eljárási illetéket” szöveg;”")
      (u8 "benyújtásával egyidejűleg nem fizeti meg az eljárási illetéket” szöveg;") None;
    FReplace (u8 "eljárás igazgatási szolgáltatási díja esetén az 5 000 forintot.” szöveg;”")
      (u8 "eljárás igazgatási szolgáltatási díja esetén az 5 000 forintot.” szöveg;") None;
    FReplace (u8 "15. 43/A. § b) pontjában az „éves szinten összesítve” és az „a tárgyévet követő augusztus 31-éig” szövegrész,”")
      (u8 "15. 43/A. § b) pontjában az „éves szinten összesítve” és az „a tárgyévet követő augusztus 31-éig” szövegrész,") None;
    FReplace (u8 "b) 19. § (10) bekezdésében az „akkreditált” szövegrész.”")
      (u8 "b) 19. § (10) bekezdésében az „akkreditált” szövegrész.") None
  ]);
  (u8 "2012. évi CXC. törvény", [
    FReplace (u8 "„l) a közszolgáltatást ellátó szakmunkás szakmai továbbképzésére vonatkozó szabályokat.""")
      (u8 "„l) a közszolgáltatást ellátó szakmunkás szakmai továbbképzésére vonatkozó szabályokat.”") None
  ]);
  (u8 "2012. évi CXCI. törvény", [
    FReplace (u8 "hatályos anyagi jogi rendelkezések alkalmazandók.""")
      (u8 "hatályos anyagi jogi rendelkezések alkalmazandók.”") None
  ]);
  (u8 "2012. évi CXCVI. törvény", [
    FReplace (u8 "20. 78. § (4) bekezdés d) pontjában a „megfizetésének” szövegrész helyébe a megfizetésének, és” szöveg,")
      (u8 "20. 78. § (4) bekezdés d) pontjában a „megfizetésének” szövegrész helyébe a „megfizetésének, és” szöveg,") None
  ]);
  (u8 "2012. évi CXIX. törvény", [
    FReplace (u8 "a 10 000 forintot;” szövegrész helyébe „a köztartozás összege eléri vagy meghaladja a 10 000 forintot;” szöveg lép.”")
      (u8 "a 10 000 forintot;” szövegrész helyébe „a köztartozás összege eléri vagy meghaladja a 10 000 forintot;” szöveg lép.") None
  ]);
  (u8 "2012. évi CXVII. törvény", [
    FReplace (u8 ",,(3) Az, akinek bírói szolgálati jogviszonya a Bjt. 90. § ha) pontja szerinti rá irányadó öregségi nyugdíjkorhatár betöltése")
      (u8 "„(3) Az, akinek bírói szolgálati jogviszonya a Bjt. 90. § ha) pontja szerinti rá irányadó öregségi nyugdíjkorhatár betöltése") None
  ]);
  (u8 "2012. évi CXXII. törvény", [
    FReplace (u8 "(a továbbiakban mint ”Szerződő Felek”, és külön mint „Szerződő Fél”);")
      (u8 "(a továbbiakban mint „Szerződő Felek”, és külön mint „Szerződő Fél”);") None
  ]);
  (u8 "2012. évi LXI. törvény", [
    FReplace (u8 "„ , illetőleg” szövegrész helyébe az „és a” szöveg, a „Magyar Országos Levéltárnak” szövegrész helyébe a ”Magyar")
      (u8 "„ , illetőleg” szövegrész helyébe az „és a” szöveg, a „Magyar Országos Levéltárnak” szövegrész helyébe a „Magyar") None
  ]);
  (u8 "2012. évi LXXIV. törvény", [
    FReplace (u8 "„5. § (1) A géntechnológiai hatóság az engedély iránti kérelmet a géntechnológiai testület véleményére figyelemmel")
      (u8 "5. § (1) A géntechnológiai hatóság az engedély iránti kérelmet a géntechnológiai testület véleményére figyelemmel") None
  ]);
  (u8 "2012. évi LXXVI. törvény", [
    FReplace (u8 ",,(9) Az ingatlan-nyilvántartásról szóló 1997. évi CXLI. törvény módosításáról szóló 2005. évi CXXII. törvény erejénél")
      (u8 "„(9) Az ingatlan-nyilvántartásról szóló 1997. évi CXLI. törvény módosításáról szóló 2005. évi CXXII. törvény erejénél") None;
    FReplace (u8 ",,(3) A (2) bekezdés alapján tulajdonba adott ingatlanokon fennálló elidegenítési és terhelési tilalmat az ingatlan")
      (u8 "„(3) A (2) bekezdés alapján tulajdonba adott ingatlanokon fennálló elidegenítési és terhelési tilalmat az ingatlan") None
  ]);
  (u8 "2012. évi LXXXIV. törvény", [
    FReplace (u8 "szolgáltatás,’’")
      (u8 "szolgáltatás,”") None
  ]);
  (u8 "2012. évi V. törvény", [
    FReplace (u8 "XXIII. törvény 30/A. § (2) bekezdése” szövegrész helyébe a közszolgálati tisztviselőkről szóló törvény” szöveg lép.")
      (u8 "XXIII. törvény 30/A. § (2) bekezdése” szövegrész helyébe „a közszolgálati tisztviselőkről szóló törvény” szöveg lép.") None
  ]);
  (u8 "2012. évi XCII. törvény", [
    FReplace (u8 "g) “Processing of personal data” (hereafter referred to as ”processing”) shall mean any operation or set of operations")
      (u8 "g) “Processing of personal data” (hereafter referred to as “processing”) shall mean any operation or set of operations") None
  ]);
  (u8 "2012. évi XCIII. törvény", [
    FReplace (u8 "d) a 12/G. § (2) bekezdésében a „talajvédelmi szempontokra és” szövegrész helyébe a művelhetőségi, és")
      (u8 "d) a 12/G. § (2) bekezdésében a „talajvédelmi szempontokra és” szövegrész helyébe a „művelhetőségi, és") None;
    FReplace (u8 "I. törvény 81. § (1) bekezdésében az „okmányiroda” szövegrész helyébe a ”fővárosi és megyei kormányhivatal járási")
      (u8 "I. törvény 81. § (1) bekezdésében az „okmányiroda” szövegrész helyébe a „fővárosi és megyei kormányhivatal járási") None;
    FReplace (u8 "járási (fővárosi kerületi) hivatala"" szöveg lép.")
      (u8 "járási (fővárosi kerületi) hivatala” szöveg lép.") None;
    FReplace (u8 "megyei kormányhivatal járási (fővárosi kerületi) hivatalának (a továbbiakban: járási hivatal) szöveg,")
      (u8 "megyei kormányhivatal járási (fővárosi kerületi) hivatalának (a továbbiakban: járási hivatal)” szöveg,") None;
    FReplace (u8 "b) 91. § (1) bekezdéséből „– a jegyző 90/A. §-on alapuló határozatának kivételével –"" szövegrész.")
      (u8 "b) 91. § (1) bekezdéséből „– a jegyző 90/A. §-on alapuló határozatának kivételével –” szövegrész.") None;
    FReplace (u8 "hivatal) szöveg, az 55. § (6) bekezdésében és 60. § (2) bekezdésében a „jegyző” szövegrész helyébe a „járási hivatal”")
      (u8 "hivatal)” szöveg, az 55. § (6) bekezdésében és 60. § (2) bekezdésében a „jegyző” szövegrész helyébe a „járási hivatal”") None
  ]);
  (u8 "2012. évi XVII. törvény", [
    FReplace (u8 "helyébe a „szervek” szöveg”, 84. § (3) bekezdésében az „irányító szerv által választott” szövegrész helyébe az „irányító")
      (u8 "helyébe a „szervek” szöveg, 84. § (3) bekezdésében az „irányító szerv által választott” szövegrész helyébe az „irányító") None
  ]);
  (u8 "2013. évi CC. törvény", [
    FReplace (u8 "tartalmazza az összeférhetetlenség megszüntetésére vonatkozó felszólítást is.”")
      (u8 "tartalmazza az összeférhetetlenség megszüntetésére vonatkozó felszólítást is.") None
  ]);
  (u8 "2013. évi CCL. törvény", [
    FReplace (u8 ",,(7) A közigazgatási hatósági eljárás és szolgáltatás általános szabályairól szóló törvény hatósági bizonyítvány")
      (u8 "„(7) A közigazgatási hatósági eljárás és szolgáltatás általános szabályairól szóló törvény hatósági bizonyítvány") None;
    FReplace (u8 "n) 75. § (4) bekezdésében az ,,a (2)–(3) bekezdések szerint” szövegrész helyébe az ,,a (2)–(2a) bekezdés szerint”")
      (u8 "n) 75. § (4) bekezdésében az „a (2)–(3) bekezdések szerint” szövegrész helyébe az „a (2)–(2a) bekezdés szerint”") None;
    FReplace (u8 "e) 38. § (1) bekezdés a) pontjában a „feladatait és hatáskörét” szövegrész helyébe a feladatait, hatáskörét és")
      (u8 "e) 38. § (1) bekezdés a) pontjában a „feladatait és hatáskörét” szövegrész helyébe a „feladatait, hatáskörét és") None;
    FReplace (u8 "(2) A Hktv. 40. § (4) bekezdésében a ,,térítésmentesen” szövegrész helyébe a ,,térítésmentesen, valamint az elektronikus")
      (u8 "(2) A Hktv. 40. § (4) bekezdésében a „térítésmentesen” szövegrész helyébe a „térítésmentesen, valamint az elektronikus") None
  ]);
  (u8 "2013. évi CCLII. törvény", [
    FReplace (u8 "(4) A 6:198. § (3) bekezdése a következő szöveggel lép hatályba:")
      (u8 "(4) A Ptk. 6:198. § (3) bekezdése a következő szöveggel lép hatályba:") None;
    FReplace (u8 ",,(1) Az egyesület jogutód nélküli megszűnése esetén a hitelezők követeléseinek kiegyenlítése után fennmaradó")
      (u8 "„(1) Az egyesület jogutód nélküli megszűnése esetén a hitelezők követeléseinek kiegyenlítése után fennmaradó") None;
    FReplace (u8 ",,(3) A nyilvántartó bíróság jogszabályban meghatározott szervezetnek juttatja a vagyont, ha az alapító okirat, vagy")
      (u8 "„(3) A nyilvántartó bíróság jogszabályban meghatározott szervezetnek juttatja a vagyont, ha az alapító okirat, vagy") None;
    FReplace (u8 "az „a szülő” szövegrész helyett az „az a szülő, akinek szülői felügyeleti joga szünetel,” az „az átmeneti")
      (u8 "az „a szülő” szövegrész helyett az „az a szülő, akinek szülői felügyeleti joga szünetel,” szöveggel, az „az átmeneti") None
  ]);
  (u8 "2013. évi CCXLIII. törvény", [
    FReplace (u8 "p) 3. melléklet 4. sorában a „kollégiumvezető-helyettese” szövegrész helyébe a kollégiumvezető-helyettese és")
      (u8 "p) 3. melléklet 4. sorában a „kollégiumvezető-helyettese” szövegrész helyébe a „kollégiumvezető-helyettese és") None
  ]);
  (u8 "2013. évi CCXLVIII. törvény", [
    FReplace (u8 "1.1. ”AIP” or Aeronautical Information Publication means the collection and dissemination of all")
      (u8 "1.1. “AIP” or Aeronautical Information Publication means the collection and dissemination of all") None;
    FReplace (u8 "1.2. ”ANS” or Air Navigation Services for the purpose of this Agreement includes Air Traffic Management")
      (u8 "1.2. “ANS” or Air Navigation Services for the purpose of this Agreement includes Air Traffic Management") None;
    FReplace (u8 "1.3. ”ANSP” or Air Navigation Service Provider means any public or private entity providing air navigation")
      (u8 "1.3. “ANSP” or Air Navigation Service Provider means any public or private entity providing air navigation") None;
    FReplace (u8 "1.4. ”Appropriate NATO CAOC” means the competent NATO Combined Air Operations Centre.")
      (u8 "1.4. “Appropriate NATO CAOC” means the competent NATO Combined Air Operations Centre.") None;
    FReplace (u8 "1.5. ”Assignment” means the preparatory works and service provision carried out on the basis of this")
      (u8 "1.5. “Assignment” means the preparatory works and service provision carried out on the basis of this") None;
    FReplace (u8 "1.6. ”ATM” means ATS, Airspace Management and Air Traffic Flow Management.")
      (u8 "1.6. “ATM” means ATS, Airspace Management and Air Traffic Flow Management.") None;
    FReplace (u8 "1.7. ”ATS” means area control service flight information service and alerting service.")
      (u8 "1.7. “ATS” means area control service flight information service and alerting service.") None;
    FReplace (u8 "1.8. ”Designated Airspace” shall have the meaning attributed thereto under Article 3.")
      (u8 "1.8. “Designated Airspace” shall have the meaning attributed thereto under Article 3.") None;
    FReplace (u8 "1.9. ”FIR” stands for Flight Information Region which is an airspace of defined dimensions within which")
      (u8 "1.9. “FIR” stands for Flight Information Region which is an airspace of defined dimensions within which") None;
    FReplace (u8 "1.10. ”GAT” or General Air Traffic means flights conducted in accordance with the rules and provisions of")
      (u8 "1.10. “GAT” or General Air Traffic means flights conducted in accordance with the rules and provisions of") None;
    FReplace (u8 "1.11. ”ICAO Class C Airspace” means aircraft operations may be conducted under Instrument Flight Rules")
      (u8 "1.11. “ICAO Class C Airspace” means aircraft operations may be conducted under Instrument Flight Rules") None;
    FReplace (u8 "1.12. ”NSA” stands for National Supervisory Authority. For the purpose of this Agreement, NSA means the")
      (u8 "1.12. “NSA” stands for National Supervisory Authority. For the purpose of this Agreement, NSA means the") None;
    FReplace (u8 "1.13. ”OAT” or Operational Air Traffic means flights which do not comply with the provisions stated for")
      (u8 "1.13. “OAT” or Operational Air Traffic means flights which do not comply with the provisions stated for") None;
    FReplace (u8 "1.14. ”Safety investigation” means a process conducted by a safety investigation authority for the purpose")
      (u8 "1.14. “Safety investigation” means a process conducted by a safety investigation authority for the purpose") None;
    FReplace (u8 "1.15. ”SPINS” stands for Special Instructions is the Unclassified Special Instructions or specific information,")
      (u8 "1.15. “SPINS” stands for Special Instructions is the Unclassified Special Instructions or specific information,") None;
    FReplace (u8 "1.16. ”State flights” are flights engaged in missions undertaken by government, military, customs and")
      (u8 "1.16. “State flights” are flights engaged in missions undertaken by government, military, customs and") None;
    FReplace (u8 "1.17. ”TRA” stands for Temporary Restricted Area and refers to an airspace of defined dimensions in")
      (u8 "1.17. “TRA” stands for Temporary Restricted Area and refers to an airspace of defined dimensions in") None;
    FReplace (u8 "1.18. ”SIA” stands for Safety Investigation Authority. For the purpose of this Agreement, the SIA means the")
      (u8 "1.18. “SIA” stands for Safety Investigation Authority. For the purpose of this Agreement, the SIA means the") None;
    FReplace (u8 "1.19. ”UAV/RPA” stands for Unmanned Aerial Vehicle/Remotely Piloted Aircraft.")
      (u8 "1.19. “UAV/RPA” stands for Unmanned Aerial Vehicle/Remotely Piloted Aircraft.") None;
    FReplace (u8 "P2 – Intersection of SKOPJE FIR, 41 52 37N 020 35 37E ”Triple Point” – SKOPJE FIR, TIRANA")
      (u8 "P2 – Intersection of SKOPJE FIR, 41 52 37N 020 35 37E “Triple Point” – SKOPJE FIR, TIRANA") None;
    FReplace (u8 "1.1. ”AIP” vagy Aeronautical Information Publication (Légiforgalmi Tájékoztató Kiadvány) jelenti az összes")
      (u8 "1.1. “AIP” vagy Aeronautical Information Publication (Légiforgalmi Tájékoztató Kiadvány) jelenti az összes") None;
    FReplace (u8 "1.2. ”ANS” vagy Air Navigation Services (Léginavigációs Szolgálatok) jelen Megállapodás céljaira magában")
      (u8 "1.2. “ANS” vagy Air Navigation Services (Léginavigációs Szolgálatok) jelen Megállapodás céljaira magában") None;
    FReplace (u8 "1.3. ”ANSP” vagy Air Navigation Service Provider (Léginavigációs Szolgáltató) jelenti az általános légiforgalom")
      (u8 "1.3. “ANSP” vagy Air Navigation Service Provider (Léginavigációs Szolgáltató) jelenti az általános légiforgalom") None;
    FReplace (u8 "1.4. ”A megfelelő NATO CAOC” jelentése az illetékes NATO Egyesített Légi Műveleti Központ Combined Air")
      (u8 "1.4. “A megfelelő NATO CAOC” jelentése az illetékes NATO Egyesített Légi Műveleti Központ Combined Air") None;
    FReplace (u8 "1.5. ”Megbízatás” jelenti a jelen Megállapodás alapján végrehajtott előkészítő tevékenység és a szolgálatok")
      (u8 "1.5. “Megbízatás” jelenti a jelen Megállapodás alapján végrehajtott előkészítő tevékenység és a szolgálatok") None;
    FReplace (u8 "1.6. ”ATM” jelentése: ATS, Légtérgazdálkodás és Légiforgalmi Áramlásszervezés (Airspace Management és Air")
      (u8 "1.6. “ATM” jelentése: ATS, Légtérgazdálkodás és Légiforgalmi Áramlásszervezés (Airspace Management és Air") None;
    FReplace (u8 "1.7. ”ATS” jelenti a Körzeti Irányító Szolgálatot, a Repüléstájékoztató szolgálatot és a riasztószolgálatot.")
      (u8 "1.7. “ATS” jelenti a Körzeti Irányító Szolgálatot, a Repüléstájékoztató szolgálatot és a riasztószolgálatot.") None;
    FReplace (u8 "1.8. A ”Kijelölt Légtér” jelentése a 3. cikkben meghatározott jelentés.")
      (u8 "1.8. A “Kijelölt Légtér” jelentése a 3. cikkben meghatározott jelentés.") None;
    FReplace (u8 "1.9. ”FIR” jelentése a Repüléstájékoztató Körzet (Flight Information Region - FIR), meghatározott kiterjedésű")
      (u8 "1.9. “FIR” jelentése a Repüléstájékoztató Körzet (Flight Information Region - FIR), meghatározott kiterjedésű") None;
    FReplace (u8 "1.10. ”GAT” vagy General Air Traffic (Általános Légiforgalom) jelenti az ICAO szabályainak és rendelkezéseink")
      (u8 "1.10. “GAT” vagy General Air Traffic (Általános Légiforgalom) jelenti az ICAO szabályainak és rendelkezéseink") None;
    FReplace (u8 "1.11. ”ICAO Class C Airspace” (ICAO C osztályú légtér) jelenti, hogy légijármű üzemeltetés végezhető a Műszer")
      (u8 "1.11. “ICAO Class C Airspace” (ICAO C osztályú légtér) jelenti, hogy légijármű üzemeltetés végezhető a Műszer") None;
    FReplace (u8 "1.12. ”NSA” jelentése a Nemzeti Felügyeleti Hatóság (National Supervisory Authority). Jelen Megállapodás")
      (u8 "1.12. “NSA” jelentése a Nemzeti Felügyeleti Hatóság (National Supervisory Authority). Jelen Megállapodás") None;
    FReplace (u8 "1.13. ”OAT” vagy Műveleti Légiforgalom (Operational Air Traffic) jelenti a GAT vonatkozásában meghatározott")
      (u8 "1.13. “OAT” vagy Műveleti Légiforgalom (Operational Air Traffic) jelenti a GAT vonatkozásában meghatározott") None;
    FReplace (u8 "1.14. ”Eseményvizsgálat” a balesetek és repülőesemények megelőzése céljából az eseményvizsgálatokat végző")
      (u8 "1.14. “Eseményvizsgálat” a balesetek és repülőesemények megelőzése céljából az eseményvizsgálatokat végző") None;
    FReplace (u8 "1.15. ”SPINS” jelenti a megfelelő NATO testületek által közzétett Speciális Utasításokat (Special Instructions),")
      (u8 "1.15. “SPINS” jelenti a megfelelő NATO testületek által közzétett Speciális Utasításokat (Special Instructions),") None;
    FReplace (u8 "1.16. ”Állami repülések” (State flights) azok a műveleti repülések, amelyeket kormányzati, katonai, vámügyi és")
      (u8 "1.16. “Állami repülések” (State flights) azok a műveleti repülések, amelyeket kormányzati, katonai, vámügyi és") None;
    FReplace (u8 "1.17. ”TRA” jelentése Időszakosan Korlátozott Légtér (Temporary Restricted Area), amely a kijelölt légtérben egy")
      (u8 "1.17. “TRA” jelentése Időszakosan Korlátozott Légtér (Temporary Restricted Area), amely a kijelölt légtérben egy") None;
    FReplace (u8 "1.18. ”SIA” jelenti az Eseményvizsgálatokat Végző Hatóságot (Safety Investigation Authority). Jelen Megállapodás")
      (u8 "1.18. “SIA” jelenti az Eseményvizsgálatokat Végző Hatóságot (Safety Investigation Authority). Jelen Megállapodás") None;
    FReplace (u8 "1.19. ”UAV/RPA” jelentése pilóta nélküli légijármű / távvezérelt légijármű (Unmanned Aerial Vehicle/Remotely")
      (u8 "1.19. “UAV/RPA” jelentése pilóta nélküli légijármű / távvezérelt légijármű (Unmanned Aerial Vehicle/Remotely") None;
    FReplace (u8 "P2 – SKOPJE FIR, TIRANA FIR & 41 52 37N 020 35 37E „Hármas pont“ – SKOPJE FIR, TIRANA")
      (u8 "P2 – SKOPJE FIR, TIRANA FIR & 41 52 37N 020 35 37E „Hármas pont” – SKOPJE FIR, TIRANA") None;
    FReplace (u8 "1 A „Közigazgatási határvonal” a Nemzetközi Biztonsági Erő ( „KFOR“) és a Jugoszláv Szövetségi Köztársaság, illetve a Szerb Köztársaság kormányai")
      (u8 "1 A „Közigazgatási határvonal” a Nemzetközi Biztonsági Erő ( „KFOR”) és a Jugoszláv Szövetségi Köztársaság, illetve a Szerb Köztársaság kormányai") None;
    FReplace (u8 "„Költségalap“) hoz létre, amely tartalmazza a léginavigációs szolgálatokkal kapcsolatban felmerülő összes")
      (u8 "„Költségalap”) hoz létre, amely tartalmazza a léginavigációs szolgálatokkal kapcsolatban felmerülő összes") None;
    FReplace (u8 "megkezdését megelőzően – az ANSP-nek külön dokumentumot ( „Alapelvek“) kell kiadnia, amelyben")
      (u8 "megkezdését megelőzően – az ANSP-nek külön dokumentumot ( „Alapelvek”) kell kiadnia, amelyben") None
  ]);
  (u8 "2013. évi CCXVIII. törvény", [
    FReplace (u8 "eb) alpontjában, valamint f) pont fb) és fc) alpontjában”, a „valamint e) pont ec) és ed) alpontjában szövegrész")
      (u8 "eb) alpontjában, valamint f) pont fb) és fc) alpontjában”, a „valamint e) pont ec) és ed) alpontjában” szövegrész") None
  ]);
  (u8 "2013. évi CCXXXI. törvény", [
    FReplace (u8 "a már csökkentett összeget tartalmazza” szöveg lép.”")
      (u8 "a már csökkentett összeget tartalmazza” szöveg lép.") None
  ]);
  (u8 "2013. évi CCXXXVI. törvény", [
    FReplace (u8 "által alkalmazott módszerről,”")
      (u8 "által alkalmazott módszerről,") None;
    FReplace (u8 "183/A. § (1) Az MNB a 33. § (1) bekezdésének megfelelően – a (2), a (3) vagy a (4) bekezdésben foglalt eltéréssel –")
      (u8 "„183/A. § (1) Az MNB a 33. § (1) bekezdésének megfelelően – a (2), a (3) vagy a (4) bekezdésben foglalt eltéréssel –") None
  ]);
  (u8 "2013. évi CLII. törvény", [
    FReplace (u8 "”I have the honour to refer to paragraph 2 of Article 7 of the Agreement between Japan and Hungary on Social")
      (u8 "“I have the honour to refer to paragraph 2 of Article 7 of the Agreement between Japan and Hungary on Social") None;
    FReplace (u8 "”I have the honour to refer to the Agreement between Japan and Hungary on Social Security which was signed")
      (u8 "“I have the honour to refer to the Agreement between Japan and Hungary on Social Security which was signed") None
  ]);
  (u8 "2013. évi CLXIII. törvény", [
    FReplace (u8 "(hereinafter referred to as „Hungarian tax“);")
      (u8 "(hereinafter referred to as „Hungarian tax”);") None;
    FReplace (u8 "(hereinafter referred to as „Swiss tax“).")
      (u8 "(hereinafter referred to as „Swiss tax”).") None;
    FReplace (u8 "a) (i) the term „Hungary“ means the territory of Hungary as defined by its laws in accordance with")
      (u8 "a) (i) the term „Hungary” means the territory of Hungary as defined by its laws in accordance with") None;
    FReplace (u8 "(ii) the term „Switzerland“ means the territory of the Swiss Confederation as defined by its laws in")
      (u8 "(ii) the term „Switzerland” means the territory of the Swiss Confederation as defined by its laws in") None;
    FReplace (u8 "b) the term „person“ includes an individual, a company and any other body of persons;")
      (u8 "b) the term „person” includes an individual, a company and any other body of persons;") None;
    FReplace (u8 "c) the term „company“ means any body corporate or any entity which is treated as a body corporate for tax")
      (u8 "c) the term „company” means any body corporate or any entity which is treated as a body corporate for tax") None;
    FReplace (u8 "d) the terms „enterprise of a Contracting State“ and „enterprise of the other Contracting State“ mean")
      (u8 "d) the terms „enterprise of a Contracting State” and „enterprise of the other Contracting State” mean") None;
    FReplace (u8 "e) the term „international traffic“ means any transport by a ship or aircraft operated by an enterprise that has")
      (u8 "e) the term „international traffic” means any transport by a ship or aircraft operated by an enterprise that has") None;
    FReplace (u8 "f) the term „competent authority“ means:")
      (u8 "f) the term „competent authority” means:") None;
    FReplace (u8 "g) the term „national“ in relation to a Contracting State means:")
      (u8 "g) the term „national” in relation to a Contracting State means:") None;
    FReplace (u8 "1. For the purposes of this Convention, the term „resident of a Contracting State“ means any person who, under")
      (u8 "1. For the purposes of this Convention, the term „resident of a Contracting State” means any person who, under") None;
    FReplace (u8 "1. For the purposes of this Convention, the term „permanent establishment“ means a fixed place of business through")
      (u8 "1. For the purposes of this Convention, the term „permanent establishment” means a fixed place of business through") None;
    FReplace (u8 "2. The term „permanent establishment“ includes especially:")
      (u8 "2. The term „permanent establishment” includes especially:") None;
    FReplace (u8 "4. Notwithstanding the preceding provisions of this Article, the term „permanent establishment“ shall be deemed not")
      (u8 "4. Notwithstanding the preceding provisions of this Article, the term „permanent establishment” shall be deemed not") None;
    FReplace (u8 "2. The term „immovable property“ shall have the meaning which it has under the law of the Contracting State in which")
      (u8 "2. The term „immovable property” shall have the meaning which it has under the law of the Contracting State in which") None;
    FReplace (u8 "5. The term „dividends“ as used in this Article means income from shares, „jouissance“ shares or „jouissance“ rights,")
      (u8 "5. The term „dividends” as used in this Article means income from shares, „jouissance” shares or „jouissance” rights,") None;
    FReplace (u8 "2. The term „interest“ as used in this Article means income from debt-claims of every kind, whether or not secured by")
      (u8 "2. The term „interest” as used in this Article means income from debt-claims of every kind, whether or not secured by") None;
    FReplace (u8 "2. The term „royalties“ as used in this Article means payments of any kind received as a consideration for the use of,")
      (u8 "2. The term „royalties” as used in this Article means payments of any kind received as a consideration for the use of,") None;
    FReplace (u8 "2. The term „professional services“ includes especially independent scientific, literary, artistic, educational or teaching")
      (u8 "2. The term „professional services” includes especially independent scientific, literary, artistic, educational or teaching") None;
    FReplace (u8 "It is understood that the term „pensions“ as used in Article 18 does not only cover periodic payments, but also")
      (u8 "It is understood that the term „pensions” as used in Article 18 does not only cover periodic payments, but also") None;
    FReplace (u8 "In case of Switzerland, the term „pensions“ also includes payments from individual recognized pension schemes")
      (u8 "In case of Switzerland, the term „pensions” also includes payments from individual recognized pension schemes") None
  ]);
  (u8 "2013. évi CLXXXVI. törvény", [
    FReplace (u8 "o) 85. § (4) és (5) bekezdésében a tagállamának” szövegrész helyébe a „tagállam”,")
      (u8 "o) 85. § (4) és (5) bekezdésében a „tagállamának” szövegrész helyébe a „tagállam”,") None;
    FReplace (u8 "p) 85. § (7) bekezdésében a tagállamával” szövegrész helyébe a „tagállammal”")
      (u8 "p) 85. § (7) bekezdésében a „tagállamával” szövegrész helyébe a „tagállammal”") None
  ]);
  (u8 "2013. évi CXCVIII. törvény", [
    FReplace (u8 "b) 54. § (1) bekezdésében az „– a kérelem írásban történő visszavonásától eltérő okból –” szövegrész.”")
      (u8 "b) 54. § (1) bekezdésében az „– a kérelem írásban történő visszavonásától eltérő okból –” szövegrész.") None
  ]);
  (u8 "2013. évi CXLIII. törvény", [
    FReplace (u8 "a) 3. § (6) bekezdésében a „Pénzügyi Szervezetek Állami Felügyelete (a továbbiakban: Felügyelet) szövegrész")
      (u8 "a) 3. § (6) bekezdésében a „Pénzügyi Szervezetek Állami Felügyelete (a továbbiakban: Felügyelet)” szövegrész") None
  ]);
  (u8 "2013. évi CXXV. törvény", [
    FReplace (u8 "ajánlatot vagy nyújthatnak be részvételi jelentkezést.’’")
      (u8 "ajánlatot vagy nyújthatnak be részvételi jelentkezést.”") None
  ]);
  (u8 "2013. évi CXXXV. törvény", [
    FReplace (u8 "41. § A polgári törvénykönyvről szóló 2013. évi V. tv. a 3:297. §-a a következő szöveggel lép hatályba:")
      (u8 "41. § A polgári törvénykönyvről szóló 2013. évi V. tv. 3:297. §-a a következő szöveggel lép hatályba:") None;
    FReplace (u8 "„Az átváltozó kötvény")
      (u8 "„3:240/A. § [Az átváltozó kötvény]") (Some [u8 "kiegészülve lép hatályba:"]);
    FReplace (u8 "3:240/A. § (1) A részvénytársaság alaptőkéjének feléig forgalomba hozhat olyan névre szóló kötvényt, amely egy")
      (u8 "(1) A részvénytársaság alaptőkéjének feléig forgalomba hozhat olyan névre szóló kötvényt, amely egy") None;
    FReplace (u8 "„Elsőbbségi jog gyakorlása")
      (u8 "„3:297. § Elsőbbségi jog gyakorlása") None;
    FReplace (u8 "„3:297. § Elsőbbségi jog gyakorlása")
      (u8 "„3:297. § [Elsőbbségi jog gyakorlása]") None;
    FReplace (u8 "„5. Alaptőke-emelés átváltoztatható kötvények részvénnyé alakításával,")
      (u8 "„") None;
    FReplace (u8 "ill. átváltozó kötvények részvénnyé alakulásával")
      (u8 "") None;
    FReplace (u8 "3:303. § [Feltételes alaptőke-emelés]")
      (u8 "") None;
    FReplace (u8 "„")
      (u8 "") None;
    FReplace (u8 "(1) A részvénytársaság feltételes alaptőke-emelést határozhat el átváltoztatható, ill. átváltozó kötvények forgalomba")
      (u8 "„(1) A részvénytársaság feltételes alaptőke-emelést határozhat el átváltoztatható, ill. átváltozó kötvények forgalomba") None;
    FReplace (u8 "42. § A polgári törvénykönyvről szóló 2013. évi V. tv. 3:303. § (1)–(3) bekezdése a következő szöveggel lép hatályba:")
      (u8 "42. § A polgári törvénykönyvről szóló 2013. évi V. tv. 3:303. § (1)–(5) bekezdése a következő szöveggel lép hatályba:") None
  ]);
  (u8 "2013. évi LII. törvény", [
    FReplace (u8 "(3) E törvény 2013. július 2-án hatályát veszti.”")
      (u8 "(3) E törvény 2013. július 2-án hatályát veszti.") None
  ]);
  (u8 "2013. évi LXXII. törvény", [
    FReplace (u8 "szöveg lép.”")
      (u8 "szöveg lép.") None
  ]);
  (u8 "2013. évi LXXX. törvény", [
    FReplace (u8 "„ 7/A. § (1) Az állam tulajdonában álló nemzeti vagyon tekintetében tulajdonosi joggyakorló kizárólag")
      (u8 "„7/A. § (1) Az állam tulajdonában álló nemzeti vagyon tekintetében tulajdonosi joggyakorló kizárólag") None
  ]);
  (u8 "2013. évi LXXXVII. törvény", [
    FReplace (u8 "évi LXXXVII. törvénnyel megállapított rendelkezéseit 2014. január 1-jétől kell alkalmazni.")
      (u8 "évi LXXXVII. törvénnyel megállapított rendelkezéseit 2014. január 1-jétől kell alkalmazni.”") None
  ]);
  (u8 "2013. évi VII. törvény", [
    FReplace (u8 "„KORLÁTOZOTT TERJESZTÉSŰ!“ DIFFUSION RESTREINTE")
      (u8 "„KORLÁTOZOTT TERJESZTÉSŰ!” DIFFUSION RESTREINTE") None
  ]);
  (u8 "2013. évi XLI. törvény", [
    FReplace (u8 "Foglalkoztatási Alap negyedévente megtéríti az Egészségbiztosítási Alap részére.”")
      (u8 "Foglalkoztatási Alap negyedévente megtéríti az Egészségbiztosítási Alap részére.") None;
    FReplace (u8 "b) 39. § (2) bekezdésében az „s)–v) pontja szövegrész helyébe az „s)–w) pontja” szöveg,")
      (u8 "b) 39. § (2) bekezdésében az „s)–v) pontja” szövegrész helyébe az „s)–w) pontja” szöveg,") None
  ])
].
