(** Generated by tools/gen_encounter.py: CONSTANT_CASE_SPECIES_EN (data/__init__.py:9-16)
    from resources/txt/species_en.txt, and the elements of
    ["wild_encounter_groups"][0]["encounters"] of resources/encount/*.json. *)
From Coq Require Import NArith String List.
From Verif Require Import Model.Encounter3.
Import ListNotations.
Open Scope string_scope.
Open Scope N_scope.

Definition SPECIES_ABRA := "SPECIES_ABRA".
Definition SPECIES_ABSOL := "SPECIES_ABSOL".
Definition SPECIES_AIPOM := "SPECIES_AIPOM".
Definition SPECIES_ALTARIA := "SPECIES_ALTARIA".
Definition SPECIES_ARBOK := "SPECIES_ARBOK".
Definition SPECIES_ARON := "SPECIES_ARON".
Definition SPECIES_BAGON := "SPECIES_BAGON".
Definition SPECIES_BALTOY := "SPECIES_BALTOY".
Definition SPECIES_BANETTE := "SPECIES_BANETTE".
Definition SPECIES_BARBOACH := "SPECIES_BARBOACH".
Definition SPECIES_BELLSPROUT := "SPECIES_BELLSPROUT".
Definition SPECIES_CACNEA := "SPECIES_CACNEA".
Definition SPECIES_CARVANHA := "SPECIES_CARVANHA".
Definition SPECIES_CASCOON := "SPECIES_CASCOON".
Definition SPECIES_CATERPIE := "SPECIES_CATERPIE".
Definition SPECIES_CHANSEY := "SPECIES_CHANSEY".
Definition SPECIES_CHIMECHO := "SPECIES_CHIMECHO".
Definition SPECIES_CHINCHOU := "SPECIES_CHINCHOU".
Definition SPECIES_CLAMPERL := "SPECIES_CLAMPERL".
Definition SPECIES_CLAYDOL := "SPECIES_CLAYDOL".
Definition SPECIES_CLEFAIRY := "SPECIES_CLEFAIRY".
Definition SPECIES_CORPHISH := "SPECIES_CORPHISH".
Definition SPECIES_CORSOLA := "SPECIES_CORSOLA".
Definition SPECIES_CUBONE := "SPECIES_CUBONE".
Definition SPECIES_DELIBIRD := "SPECIES_DELIBIRD".
Definition SPECIES_DEWGONG := "SPECIES_DEWGONG".
Definition SPECIES_DIGLETT := "SPECIES_DIGLETT".
Definition SPECIES_DITTO := "SPECIES_DITTO".
Definition SPECIES_DODRIO := "SPECIES_DODRIO".
Definition SPECIES_DODUO := "SPECIES_DODUO".
Definition SPECIES_DRAGONAIR := "SPECIES_DRAGONAIR".
Definition SPECIES_DRATINI := "SPECIES_DRATINI".
Definition SPECIES_DROWZEE := "SPECIES_DROWZEE".
Definition SPECIES_DUGTRIO := "SPECIES_DUGTRIO".
Definition SPECIES_DUNSPARCE := "SPECIES_DUNSPARCE".
Definition SPECIES_DUSCLOPS := "SPECIES_DUSCLOPS".
Definition SPECIES_DUSKULL := "SPECIES_DUSKULL".
Definition SPECIES_EKANS := "SPECIES_EKANS".
Definition SPECIES_ELECTABUZZ := "SPECIES_ELECTABUZZ".
Definition SPECIES_ELECTRIKE := "SPECIES_ELECTRIKE".
Definition SPECIES_ELECTRODE := "SPECIES_ELECTRODE".
Definition SPECIES_EXEGGCUTE := "SPECIES_EXEGGCUTE".
Definition SPECIES_FEAROW := "SPECIES_FEAROW".
Definition SPECIES_GASTLY := "SPECIES_GASTLY".
Definition SPECIES_GEODUDE := "SPECIES_GEODUDE".
Definition SPECIES_GIRAFARIG := "SPECIES_GIRAFARIG".
Definition SPECIES_GLIGAR := "SPECIES_GLIGAR".
Definition SPECIES_GLOOM := "SPECIES_GLOOM".
Definition SPECIES_GOLBAT := "SPECIES_GOLBAT".
Definition SPECIES_GOLDEEN := "SPECIES_GOLDEEN".
Definition SPECIES_GOLDUCK := "SPECIES_GOLDUCK".
Definition SPECIES_GRAVELER := "SPECIES_GRAVELER".
Definition SPECIES_GRIMER := "SPECIES_GRIMER".
Definition SPECIES_GROWLITHE := "SPECIES_GROWLITHE".
Definition SPECIES_GULPIN := "SPECIES_GULPIN".
Definition SPECIES_GYARADOS := "SPECIES_GYARADOS".
Definition SPECIES_HARIYAMA := "SPECIES_HARIYAMA".
Definition SPECIES_HAUNTER := "SPECIES_HAUNTER".
Definition SPECIES_HERACROSS := "SPECIES_HERACROSS".
Definition SPECIES_HOOTHOOT := "SPECIES_HOOTHOOT".
Definition SPECIES_HOPPIP := "SPECIES_HOPPIP".
Definition SPECIES_HORSEA := "SPECIES_HORSEA".
Definition SPECIES_HOUNDOUR := "SPECIES_HOUNDOUR".
Definition SPECIES_HYPNO := "SPECIES_HYPNO".
Definition SPECIES_ILLUMISE := "SPECIES_ILLUMISE".
Definition SPECIES_JIGGLYPUFF := "SPECIES_JIGGLYPUFF".
Definition SPECIES_KADABRA := "SPECIES_KADABRA".
Definition SPECIES_KAKUNA := "SPECIES_KAKUNA".
Definition SPECIES_KANGASKHAN := "SPECIES_KANGASKHAN".
Definition SPECIES_KECLEON := "SPECIES_KECLEON".
Definition SPECIES_KINGLER := "SPECIES_KINGLER".
Definition SPECIES_KOFFING := "SPECIES_KOFFING".
Definition SPECIES_KRABBY := "SPECIES_KRABBY".
Definition SPECIES_LAIRON := "SPECIES_LAIRON".
Definition SPECIES_LAPRAS := "SPECIES_LAPRAS".
Definition SPECIES_LARVITAR := "SPECIES_LARVITAR".
Definition SPECIES_LEDYBA := "SPECIES_LEDYBA".
Definition SPECIES_LINOONE := "SPECIES_LINOONE".
Definition SPECIES_LOMBRE := "SPECIES_LOMBRE".
Definition SPECIES_LOTAD := "SPECIES_LOTAD".
Definition SPECIES_LOUDRED := "SPECIES_LOUDRED".
Definition SPECIES_LUNATONE := "SPECIES_LUNATONE".
Definition SPECIES_LUVDISC := "SPECIES_LUVDISC".
Definition SPECIES_MACHOKE := "SPECIES_MACHOKE".
Definition SPECIES_MACHOP := "SPECIES_MACHOP".
Definition SPECIES_MAGCARGO := "SPECIES_MAGCARGO".
Definition SPECIES_MAGIKARP := "SPECIES_MAGIKARP".
Definition SPECIES_MAGMAR := "SPECIES_MAGMAR".
Definition SPECIES_MAGNEMITE := "SPECIES_MAGNEMITE".
Definition SPECIES_MAGNETON := "SPECIES_MAGNETON".
Definition SPECIES_MAKUHITA := "SPECIES_MAKUHITA".
Definition SPECIES_MANECTRIC := "SPECIES_MANECTRIC".
Definition SPECIES_MANKEY := "SPECIES_MANKEY".
Definition SPECIES_MANTINE := "SPECIES_MANTINE".
Definition SPECIES_MAREEP := "SPECIES_MAREEP".
Definition SPECIES_MARILL := "SPECIES_MARILL".
Definition SPECIES_MAROWAK := "SPECIES_MAROWAK".
Definition SPECIES_MAWILE := "SPECIES_MAWILE".
Definition SPECIES_MEDICHAM := "SPECIES_MEDICHAM".
Definition SPECIES_MEDITITE := "SPECIES_MEDITITE".
Definition SPECIES_MEOWTH := "SPECIES_MEOWTH".
Definition SPECIES_METAPOD := "SPECIES_METAPOD".
Definition SPECIES_MIGHTYENA := "SPECIES_MIGHTYENA".
Definition SPECIES_MILTANK := "SPECIES_MILTANK".
Definition SPECIES_MINUN := "SPECIES_MINUN".
Definition SPECIES_MISDREAVUS := "SPECIES_MISDREAVUS".
Definition SPECIES_MUK := "SPECIES_MUK".
Definition SPECIES_MURKROW := "SPECIES_MURKROW".
Definition SPECIES_NATU := "SPECIES_NATU".
Definition SPECIES_NIDORAN_F := "SPECIES_NIDORAN_F".
Definition SPECIES_NIDORAN_M := "SPECIES_NIDORAN_M".
Definition SPECIES_NIDORINA := "SPECIES_NIDORINA".
Definition SPECIES_NIDORINO := "SPECIES_NIDORINO".
Definition SPECIES_NINCADA := "SPECIES_NINCADA".
Definition SPECIES_NOSEPASS := "SPECIES_NOSEPASS".
Definition SPECIES_NUMEL := "SPECIES_NUMEL".
Definition SPECIES_NUZLEAF := "SPECIES_NUZLEAF".
Definition SPECIES_OCTILLERY := "SPECIES_OCTILLERY".
Definition SPECIES_ODDISH := "SPECIES_ODDISH".
Definition SPECIES_ONIX := "SPECIES_ONIX".
Definition SPECIES_PARAS := "SPECIES_PARAS".
Definition SPECIES_PARASECT := "SPECIES_PARASECT".
Definition SPECIES_PELIPPER := "SPECIES_PELIPPER".
Definition SPECIES_PERSIAN := "SPECIES_PERSIAN".
Definition SPECIES_PHANPY := "SPECIES_PHANPY".
Definition SPECIES_PIDGEOTTO := "SPECIES_PIDGEOTTO".
Definition SPECIES_PIDGEY := "SPECIES_PIDGEY".
Definition SPECIES_PIKACHU := "SPECIES_PIKACHU".
Definition SPECIES_PINECO := "SPECIES_PINECO".
Definition SPECIES_PINSIR := "SPECIES_PINSIR".
Definition SPECIES_PLUSLE := "SPECIES_PLUSLE".
Definition SPECIES_POLIWAG := "SPECIES_POLIWAG".
Definition SPECIES_POLIWHIRL := "SPECIES_POLIWHIRL".
Definition SPECIES_PONYTA := "SPECIES_PONYTA".
Definition SPECIES_POOCHYENA := "SPECIES_POOCHYENA".
Definition SPECIES_PRIMEAPE := "SPECIES_PRIMEAPE".
Definition SPECIES_PSYDUCK := "SPECIES_PSYDUCK".
Definition SPECIES_QUAGSIRE := "SPECIES_QUAGSIRE".
Definition SPECIES_QWILFISH := "SPECIES_QWILFISH".
Definition SPECIES_RALTS := "SPECIES_RALTS".
Definition SPECIES_RAPIDASH := "SPECIES_RAPIDASH".
Definition SPECIES_RATICATE := "SPECIES_RATICATE".
Definition SPECIES_RATTATA := "SPECIES_RATTATA".
Definition SPECIES_RELICANTH := "SPECIES_RELICANTH".
Definition SPECIES_REMORAID := "SPECIES_REMORAID".
Definition SPECIES_RHYHORN := "SPECIES_RHYHORN".
Definition SPECIES_ROSELIA := "SPECIES_ROSELIA".
Definition SPECIES_SABLEYE := "SPECIES_SABLEYE".
Definition SPECIES_SANDSHREW := "SPECIES_SANDSHREW".
Definition SPECIES_SANDSLASH := "SPECIES_SANDSLASH".
Definition SPECIES_SCYTHER := "SPECIES_SCYTHER".
Definition SPECIES_SEADRA := "SPECIES_SEADRA".
Definition SPECIES_SEAKING := "SPECIES_SEAKING".
Definition SPECIES_SEEDOT := "SPECIES_SEEDOT".
Definition SPECIES_SEEL := "SPECIES_SEEL".
Definition SPECIES_SENTRET := "SPECIES_SENTRET".
Definition SPECIES_SEVIPER := "SPECIES_SEVIPER".
Definition SPECIES_SHARPEDO := "SPECIES_SHARPEDO".
Definition SPECIES_SHELLDER := "SPECIES_SHELLDER".
Definition SPECIES_SHROOMISH := "SPECIES_SHROOMISH".
Definition SPECIES_SHUCKLE := "SPECIES_SHUCKLE".
Definition SPECIES_SHUPPET := "SPECIES_SHUPPET".
Definition SPECIES_SILCOON := "SPECIES_SILCOON".
Definition SPECIES_SKARMORY := "SPECIES_SKARMORY".
Definition SPECIES_SKITTY := "SPECIES_SKITTY".
Definition SPECIES_SLAKOTH := "SPECIES_SLAKOTH".
Definition SPECIES_SLOWBRO := "SPECIES_SLOWBRO".
Definition SPECIES_SLOWPOKE := "SPECIES_SLOWPOKE".
Definition SPECIES_SLUGMA := "SPECIES_SLUGMA".
Definition SPECIES_SMEARGLE := "SPECIES_SMEARGLE".
Definition SPECIES_SNEASEL := "SPECIES_SNEASEL".
Definition SPECIES_SNORUNT := "SPECIES_SNORUNT".
Definition SPECIES_SNUBBULL := "SPECIES_SNUBBULL".
Definition SPECIES_SOLROCK := "SPECIES_SOLROCK".
Definition SPECIES_SPEAROW := "SPECIES_SPEAROW".
Definition SPECIES_SPHEAL := "SPECIES_SPHEAL".
Definition SPECIES_SPINARAK := "SPECIES_SPINARAK".
Definition SPECIES_SPINDA := "SPECIES_SPINDA".
Definition SPECIES_SPOINK := "SPECIES_SPOINK".
Definition SPECIES_STANTLER := "SPECIES_STANTLER".
Definition SPECIES_STARYU := "SPECIES_STARYU".
Definition SPECIES_SUNKERN := "SPECIES_SUNKERN".
Definition SPECIES_SURSKIT := "SPECIES_SURSKIT".
Definition SPECIES_SWABLU := "SPECIES_SWABLU".
Definition SPECIES_SWELLOW := "SPECIES_SWELLOW".
Definition SPECIES_SWINUB := "SPECIES_SWINUB".
Definition SPECIES_TAILLOW := "SPECIES_TAILLOW".
Definition SPECIES_TANGELA := "SPECIES_TANGELA".
Definition SPECIES_TAUROS := "SPECIES_TAUROS".
Definition SPECIES_TEDDIURSA := "SPECIES_TEDDIURSA".
Definition SPECIES_TENTACOOL := "SPECIES_TENTACOOL".
Definition SPECIES_TENTACRUEL := "SPECIES_TENTACRUEL".
Definition SPECIES_TORKOAL := "SPECIES_TORKOAL".
Definition SPECIES_TRAPINCH := "SPECIES_TRAPINCH".
Definition SPECIES_TROPIUS := "SPECIES_TROPIUS".
Definition SPECIES_UNOWN := "SPECIES_UNOWN".
Definition SPECIES_VENOMOTH := "SPECIES_VENOMOTH".
Definition SPECIES_VENONAT := "SPECIES_VENONAT".
Definition SPECIES_VOLBEAT := "SPECIES_VOLBEAT".
Definition SPECIES_VOLTORB := "SPECIES_VOLTORB".
Definition SPECIES_VULPIX := "SPECIES_VULPIX".
Definition SPECIES_WAILMER := "SPECIES_WAILMER".
Definition SPECIES_WAILORD := "SPECIES_WAILORD".
Definition SPECIES_WEEDLE := "SPECIES_WEEDLE".
Definition SPECIES_WEEPINBELL := "SPECIES_WEEPINBELL".
Definition SPECIES_WEEZING := "SPECIES_WEEZING".
Definition SPECIES_WHISCASH := "SPECIES_WHISCASH".
Definition SPECIES_WHISMUR := "SPECIES_WHISMUR".
Definition SPECIES_WINGULL := "SPECIES_WINGULL".
Definition SPECIES_WOBBUFFET := "SPECIES_WOBBUFFET".
Definition SPECIES_WOOPER := "SPECIES_WOOPER".
Definition SPECIES_WURMPLE := "SPECIES_WURMPLE".
Definition SPECIES_WYNAUT := "SPECIES_WYNAUT".
Definition SPECIES_XATU := "SPECIES_XATU".
Definition SPECIES_YANMA := "SPECIES_YANMA".
Definition SPECIES_ZANGOOSE := "SPECIES_ZANGOOSE".
Definition SPECIES_ZIGZAGOON := "SPECIES_ZIGZAGOON".
Definition SPECIES_ZUBAT := "SPECIES_ZUBAT".

Definition species_names : list string :=
  ["SPECIES_EGG";
   "SPECIES_BULBASAUR";
   "SPECIES_IVYSAUR";
   "SPECIES_VENUSAUR";
   "SPECIES_CHARMANDER";
   "SPECIES_CHARMELEON";
   "SPECIES_CHARIZARD";
   "SPECIES_SQUIRTLE";
   "SPECIES_WARTORTLE";
   "SPECIES_BLASTOISE";
   SPECIES_CATERPIE;
   SPECIES_METAPOD;
   "SPECIES_BUTTERFREE";
   SPECIES_WEEDLE;
   SPECIES_KAKUNA;
   "SPECIES_BEEDRILL";
   SPECIES_PIDGEY;
   SPECIES_PIDGEOTTO;
   "SPECIES_PIDGEOT";
   SPECIES_RATTATA;
   SPECIES_RATICATE;
   SPECIES_SPEAROW;
   SPECIES_FEAROW;
   SPECIES_EKANS;
   SPECIES_ARBOK;
   SPECIES_PIKACHU;
   "SPECIES_RAICHU";
   SPECIES_SANDSHREW;
   SPECIES_SANDSLASH;
   SPECIES_NIDORAN_F;
   SPECIES_NIDORINA;
   "SPECIES_NIDOQUEEN";
   SPECIES_NIDORAN_M;
   SPECIES_NIDORINO;
   "SPECIES_NIDOKING";
   SPECIES_CLEFAIRY;
   "SPECIES_CLEFABLE";
   SPECIES_VULPIX;
   "SPECIES_NINETALES";
   SPECIES_JIGGLYPUFF;
   "SPECIES_WIGGLYTUFF";
   SPECIES_ZUBAT;
   SPECIES_GOLBAT;
   SPECIES_ODDISH;
   SPECIES_GLOOM;
   "SPECIES_VILEPLUME";
   SPECIES_PARAS;
   SPECIES_PARASECT;
   SPECIES_VENONAT;
   SPECIES_VENOMOTH;
   SPECIES_DIGLETT;
   SPECIES_DUGTRIO;
   SPECIES_MEOWTH;
   SPECIES_PERSIAN;
   SPECIES_PSYDUCK;
   SPECIES_GOLDUCK;
   SPECIES_MANKEY;
   SPECIES_PRIMEAPE;
   SPECIES_GROWLITHE;
   "SPECIES_ARCANINE";
   SPECIES_POLIWAG;
   SPECIES_POLIWHIRL;
   "SPECIES_POLIWRATH";
   SPECIES_ABRA;
   SPECIES_KADABRA;
   "SPECIES_ALAKAZAM";
   SPECIES_MACHOP;
   SPECIES_MACHOKE;
   "SPECIES_MACHAMP";
   SPECIES_BELLSPROUT;
   SPECIES_WEEPINBELL;
   "SPECIES_VICTREEBEL";
   SPECIES_TENTACOOL;
   SPECIES_TENTACRUEL;
   SPECIES_GEODUDE;
   SPECIES_GRAVELER;
   "SPECIES_GOLEM";
   SPECIES_PONYTA;
   SPECIES_RAPIDASH;
   SPECIES_SLOWPOKE;
   SPECIES_SLOWBRO;
   SPECIES_MAGNEMITE;
   SPECIES_MAGNETON;
   "SPECIES_FARFETCH’D";
   SPECIES_DODUO;
   SPECIES_DODRIO;
   SPECIES_SEEL;
   SPECIES_DEWGONG;
   SPECIES_GRIMER;
   SPECIES_MUK;
   SPECIES_SHELLDER;
   "SPECIES_CLOYSTER";
   SPECIES_GASTLY;
   SPECIES_HAUNTER;
   "SPECIES_GENGAR";
   SPECIES_ONIX;
   SPECIES_DROWZEE;
   SPECIES_HYPNO;
   SPECIES_KRABBY;
   SPECIES_KINGLER;
   SPECIES_VOLTORB;
   SPECIES_ELECTRODE;
   SPECIES_EXEGGCUTE;
   "SPECIES_EXEGGUTOR";
   SPECIES_CUBONE;
   SPECIES_MAROWAK;
   "SPECIES_HITMONLEE";
   "SPECIES_HITMONCHAN";
   "SPECIES_LICKITUNG";
   SPECIES_KOFFING;
   SPECIES_WEEZING;
   SPECIES_RHYHORN;
   "SPECIES_RHYDON";
   SPECIES_CHANSEY;
   SPECIES_TANGELA;
   SPECIES_KANGASKHAN;
   SPECIES_HORSEA;
   SPECIES_SEADRA;
   SPECIES_GOLDEEN;
   SPECIES_SEAKING;
   SPECIES_STARYU;
   "SPECIES_STARMIE";
   "SPECIES_MR. MIME";
   SPECIES_SCYTHER;
   "SPECIES_JYNX";
   SPECIES_ELECTABUZZ;
   SPECIES_MAGMAR;
   SPECIES_PINSIR;
   SPECIES_TAUROS;
   SPECIES_MAGIKARP;
   SPECIES_GYARADOS;
   SPECIES_LAPRAS;
   SPECIES_DITTO;
   "SPECIES_EEVEE";
   "SPECIES_VAPOREON";
   "SPECIES_JOLTEON";
   "SPECIES_FLAREON";
   "SPECIES_PORYGON";
   "SPECIES_OMANYTE";
   "SPECIES_OMASTAR";
   "SPECIES_KABUTO";
   "SPECIES_KABUTOPS";
   "SPECIES_AERODACTYL";
   "SPECIES_SNORLAX";
   "SPECIES_ARTICUNO";
   "SPECIES_ZAPDOS";
   "SPECIES_MOLTRES";
   SPECIES_DRATINI;
   SPECIES_DRAGONAIR;
   "SPECIES_DRAGONITE";
   "SPECIES_MEWTWO";
   "SPECIES_MEW";
   "SPECIES_CHIKORITA";
   "SPECIES_BAYLEEF";
   "SPECIES_MEGANIUM";
   "SPECIES_CYNDAQUIL";
   "SPECIES_QUILAVA";
   "SPECIES_TYPHLOSION";
   "SPECIES_TOTODILE";
   "SPECIES_CROCONAW";
   "SPECIES_FERALIGATR";
   SPECIES_SENTRET;
   "SPECIES_FURRET";
   SPECIES_HOOTHOOT;
   "SPECIES_NOCTOWL";
   SPECIES_LEDYBA;
   "SPECIES_LEDIAN";
   SPECIES_SPINARAK;
   "SPECIES_ARIADOS";
   "SPECIES_CROBAT";
   SPECIES_CHINCHOU;
   "SPECIES_LANTURN";
   "SPECIES_PICHU";
   "SPECIES_CLEFFA";
   "SPECIES_IGGLYBUFF";
   "SPECIES_TOGEPI";
   "SPECIES_TOGETIC";
   SPECIES_NATU;
   SPECIES_XATU;
   SPECIES_MAREEP;
   "SPECIES_FLAAFFY";
   "SPECIES_AMPHAROS";
   "SPECIES_BELLOSSOM";
   SPECIES_MARILL;
   "SPECIES_AZUMARILL";
   "SPECIES_SUDOWOODO";
   "SPECIES_POLITOED";
   SPECIES_HOPPIP;
   "SPECIES_SKIPLOOM";
   "SPECIES_JUMPLUFF";
   SPECIES_AIPOM;
   SPECIES_SUNKERN;
   "SPECIES_SUNFLORA";
   SPECIES_YANMA;
   SPECIES_WOOPER;
   SPECIES_QUAGSIRE;
   "SPECIES_ESPEON";
   "SPECIES_UMBREON";
   SPECIES_MURKROW;
   "SPECIES_SLOWKING";
   SPECIES_MISDREAVUS;
   SPECIES_UNOWN;
   SPECIES_WOBBUFFET;
   SPECIES_GIRAFARIG;
   SPECIES_PINECO;
   "SPECIES_FORRETRESS";
   SPECIES_DUNSPARCE;
   SPECIES_GLIGAR;
   "SPECIES_STEELIX";
   SPECIES_SNUBBULL;
   "SPECIES_GRANBULL";
   SPECIES_QWILFISH;
   "SPECIES_SCIZOR";
   SPECIES_SHUCKLE;
   SPECIES_HERACROSS;
   SPECIES_SNEASEL;
   SPECIES_TEDDIURSA;
   "SPECIES_URSARING";
   SPECIES_SLUGMA;
   SPECIES_MAGCARGO;
   SPECIES_SWINUB;
   "SPECIES_PILOSWINE";
   SPECIES_CORSOLA;
   SPECIES_REMORAID;
   SPECIES_OCTILLERY;
   SPECIES_DELIBIRD;
   SPECIES_MANTINE;
   SPECIES_SKARMORY;
   SPECIES_HOUNDOUR;
   "SPECIES_HOUNDOOM";
   "SPECIES_KINGDRA";
   SPECIES_PHANPY;
   "SPECIES_DONPHAN";
   "SPECIES_PORYGON2";
   SPECIES_STANTLER;
   SPECIES_SMEARGLE;
   "SPECIES_TYROGUE";
   "SPECIES_HITMONTOP";
   "SPECIES_SMOOCHUM";
   "SPECIES_ELEKID";
   "SPECIES_MAGBY";
   SPECIES_MILTANK;
   "SPECIES_BLISSEY";
   "SPECIES_RAIKOU";
   "SPECIES_ENTEI";
   "SPECIES_SUICUNE";
   SPECIES_LARVITAR;
   "SPECIES_PUPITAR";
   "SPECIES_TYRANITAR";
   "SPECIES_LUGIA";
   "SPECIES_HO-OH";
   "SPECIES_CELEBI";
   "SPECIES_TREECKO";
   "SPECIES_GROVYLE";
   "SPECIES_SCEPTILE";
   "SPECIES_TORCHIC";
   "SPECIES_COMBUSKEN";
   "SPECIES_BLAZIKEN";
   "SPECIES_MUDKIP";
   "SPECIES_MARSHTOMP";
   "SPECIES_SWAMPERT";
   SPECIES_POOCHYENA;
   SPECIES_MIGHTYENA;
   SPECIES_ZIGZAGOON;
   SPECIES_LINOONE;
   SPECIES_WURMPLE;
   SPECIES_SILCOON;
   "SPECIES_BEAUTIFLY";
   SPECIES_CASCOON;
   "SPECIES_DUSTOX";
   SPECIES_LOTAD;
   SPECIES_LOMBRE;
   "SPECIES_LUDICOLO";
   SPECIES_SEEDOT;
   SPECIES_NUZLEAF;
   "SPECIES_SHIFTRY";
   SPECIES_TAILLOW;
   SPECIES_SWELLOW;
   SPECIES_WINGULL;
   SPECIES_PELIPPER;
   SPECIES_RALTS;
   "SPECIES_KIRLIA";
   "SPECIES_GARDEVOIR";
   SPECIES_SURSKIT;
   "SPECIES_MASQUERAIN";
   SPECIES_SHROOMISH;
   "SPECIES_BRELOOM";
   SPECIES_SLAKOTH;
   "SPECIES_VIGOROTH";
   "SPECIES_SLAKING";
   SPECIES_NINCADA;
   "SPECIES_NINJASK";
   "SPECIES_SHEDINJA";
   SPECIES_WHISMUR;
   SPECIES_LOUDRED;
   "SPECIES_EXPLOUD";
   SPECIES_MAKUHITA;
   SPECIES_HARIYAMA;
   "SPECIES_AZURILL";
   SPECIES_NOSEPASS;
   SPECIES_SKITTY;
   "SPECIES_DELCATTY";
   SPECIES_SABLEYE;
   SPECIES_MAWILE;
   SPECIES_ARON;
   SPECIES_LAIRON;
   "SPECIES_AGGRON";
   SPECIES_MEDITITE;
   SPECIES_MEDICHAM;
   SPECIES_ELECTRIKE;
   SPECIES_MANECTRIC;
   SPECIES_PLUSLE;
   SPECIES_MINUN;
   SPECIES_VOLBEAT;
   SPECIES_ILLUMISE;
   SPECIES_ROSELIA;
   SPECIES_GULPIN;
   "SPECIES_SWALOT";
   SPECIES_CARVANHA;
   SPECIES_SHARPEDO;
   SPECIES_WAILMER;
   SPECIES_WAILORD;
   SPECIES_NUMEL;
   "SPECIES_CAMERUPT";
   SPECIES_TORKOAL;
   SPECIES_SPOINK;
   "SPECIES_GRUMPIG";
   SPECIES_SPINDA;
   SPECIES_TRAPINCH;
   "SPECIES_VIBRAVA";
   "SPECIES_FLYGON";
   SPECIES_CACNEA;
   "SPECIES_CACTURNE";
   SPECIES_SWABLU;
   SPECIES_ALTARIA;
   SPECIES_ZANGOOSE;
   SPECIES_SEVIPER;
   SPECIES_LUNATONE;
   SPECIES_SOLROCK;
   SPECIES_BARBOACH;
   SPECIES_WHISCASH;
   SPECIES_CORPHISH;
   "SPECIES_CRAWDAUNT";
   SPECIES_BALTOY;
   SPECIES_CLAYDOL;
   "SPECIES_LILEEP";
   "SPECIES_CRADILY";
   "SPECIES_ANORITH";
   "SPECIES_ARMALDO";
   "SPECIES_FEEBAS";
   "SPECIES_MILOTIC";
   "SPECIES_CASTFORM";
   SPECIES_KECLEON;
   SPECIES_SHUPPET;
   SPECIES_BANETTE;
   SPECIES_DUSKULL;
   SPECIES_DUSCLOPS;
   SPECIES_TROPIUS;
   SPECIES_CHIMECHO;
   SPECIES_ABSOL;
   SPECIES_WYNAUT;
   SPECIES_SNORUNT;
   "SPECIES_GLALIE";
   SPECIES_SPHEAL;
   "SPECIES_SEALEO";
   "SPECIES_WALREIN";
   SPECIES_CLAMPERL;
   "SPECIES_HUNTAIL";
   "SPECIES_GOREBYSS";
   SPECIES_RELICANTH;
   SPECIES_LUVDISC;
   SPECIES_BAGON;
   "SPECIES_SHELGON";
   "SPECIES_SALAMENCE";
   "SPECIES_BELDUM";
   "SPECIES_METANG";
   "SPECIES_METAGROSS";
   "SPECIES_REGIROCK";
   "SPECIES_REGICE";
   "SPECIES_REGISTEEL";
   "SPECIES_LATIAS";
   "SPECIES_LATIOS";
   "SPECIES_KYOGRE";
   "SPECIES_GROUDON";
   "SPECIES_RAYQUAZA";
   "SPECIES_JIRACHI";
   "SPECIES_DEOXYS";
   "SPECIES_TURTWIG";
   "SPECIES_GROTLE";
   "SPECIES_TORTERRA";
   "SPECIES_CHIMCHAR";
   "SPECIES_MONFERNO";
   "SPECIES_INFERNAPE";
   "SPECIES_PIPLUP";
   "SPECIES_PRINPLUP";
   "SPECIES_EMPOLEON";
   "SPECIES_STARLY";
   "SPECIES_STARAVIA";
   "SPECIES_STARAPTOR";
   "SPECIES_BIDOOF";
   "SPECIES_BIBAREL";
   "SPECIES_KRICKETOT";
   "SPECIES_KRICKETUNE";
   "SPECIES_SHINX";
   "SPECIES_LUXIO";
   "SPECIES_LUXRAY";
   "SPECIES_BUDEW";
   "SPECIES_ROSERADE";
   "SPECIES_CRANIDOS";
   "SPECIES_RAMPARDOS";
   "SPECIES_SHIELDON";
   "SPECIES_BASTIODON";
   "SPECIES_BURMY";
   "SPECIES_WORMADAM";
   "SPECIES_MOTHIM";
   "SPECIES_COMBEE";
   "SPECIES_VESPIQUEN";
   "SPECIES_PACHIRISU";
   "SPECIES_BUIZEL";
   "SPECIES_FLOATZEL";
   "SPECIES_CHERUBI";
   "SPECIES_CHERRIM";
   "SPECIES_SHELLOS";
   "SPECIES_GASTRODON";
   "SPECIES_AMBIPOM";
   "SPECIES_DRIFLOON";
   "SPECIES_DRIFBLIM";
   "SPECIES_BUNEARY";
   "SPECIES_LOPUNNY";
   "SPECIES_MISMAGIUS";
   "SPECIES_HONCHKROW";
   "SPECIES_GLAMEOW";
   "SPECIES_PURUGLY";
   "SPECIES_CHINGLING";
   "SPECIES_STUNKY";
   "SPECIES_SKUNTANK";
   "SPECIES_BRONZOR";
   "SPECIES_BRONZONG";
   "SPECIES_BONSLY";
   "SPECIES_MIME JR.";
   "SPECIES_HAPPINY";
   "SPECIES_CHATOT";
   "SPECIES_SPIRITOMB";
   "SPECIES_GIBLE";
   "SPECIES_GABITE";
   "SPECIES_GARCHOMP";
   "SPECIES_MUNCHLAX";
   "SPECIES_RIOLU";
   "SPECIES_LUCARIO";
   "SPECIES_HIPPOPOTAS";
   "SPECIES_HIPPOWDON";
   "SPECIES_SKORUPI";
   "SPECIES_DRAPION";
   "SPECIES_CROAGUNK";
   "SPECIES_TOXICROAK";
   "SPECIES_CARNIVINE";
   "SPECIES_FINNEON";
   "SPECIES_LUMINEON";
   "SPECIES_MANTYKE";
   "SPECIES_SNOVER";
   "SPECIES_ABOMASNOW";
   "SPECIES_WEAVILE";
   "SPECIES_MAGNEZONE";
   "SPECIES_LICKILICKY";
   "SPECIES_RHYPERIOR";
   "SPECIES_TANGROWTH";
   "SPECIES_ELECTIVIRE";
   "SPECIES_MAGMORTAR";
   "SPECIES_TOGEKISS";
   "SPECIES_YANMEGA";
   "SPECIES_LEAFEON";
   "SPECIES_GLACEON";
   "SPECIES_GLISCOR";
   "SPECIES_MAMOSWINE";
   "SPECIES_PORYGON-Z";
   "SPECIES_GALLADE";
   "SPECIES_PROBOPASS";
   "SPECIES_DUSKNOIR";
   "SPECIES_FROSLASS";
   "SPECIES_ROTOM";
   "SPECIES_UXIE";
   "SPECIES_MESPRIT";
   "SPECIES_AZELF";
   "SPECIES_DIALGA";
   "SPECIES_PALKIA";
   "SPECIES_HEATRAN";
   "SPECIES_REGIGIGAS";
   "SPECIES_GIRATINA";
   "SPECIES_CRESSELIA";
   "SPECIES_PHIONE";
   "SPECIES_MANAPHY";
   "SPECIES_DARKRAI";
   "SPECIES_SHAYMIN";
   "SPECIES_ARCEUS";
   "SPECIES_VICTINI";
   "SPECIES_SNIVY";
   "SPECIES_SERVINE";
   "SPECIES_SERPERIOR";
   "SPECIES_TEPIG";
   "SPECIES_PIGNITE";
   "SPECIES_EMBOAR";
   "SPECIES_OSHAWOTT";
   "SPECIES_DEWOTT";
   "SPECIES_SAMUROTT";
   "SPECIES_PATRAT";
   "SPECIES_WATCHOG";
   "SPECIES_LILLIPUP";
   "SPECIES_HERDIER";
   "SPECIES_STOUTLAND";
   "SPECIES_PURRLOIN";
   "SPECIES_LIEPARD";
   "SPECIES_PANSAGE";
   "SPECIES_SIMISAGE";
   "SPECIES_PANSEAR";
   "SPECIES_SIMISEAR";
   "SPECIES_PANPOUR";
   "SPECIES_SIMIPOUR";
   "SPECIES_MUNNA";
   "SPECIES_MUSHARNA";
   "SPECIES_PIDOVE";
   "SPECIES_TRANQUILL";
   "SPECIES_UNFEZANT";
   "SPECIES_BLITZLE";
   "SPECIES_ZEBSTRIKA";
   "SPECIES_ROGGENROLA";
   "SPECIES_BOLDORE";
   "SPECIES_GIGALITH";
   "SPECIES_WOOBAT";
   "SPECIES_SWOOBAT";
   "SPECIES_DRILBUR";
   "SPECIES_EXCADRILL";
   "SPECIES_AUDINO";
   "SPECIES_TIMBURR";
   "SPECIES_GURDURR";
   "SPECIES_CONKELDURR";
   "SPECIES_TYMPOLE";
   "SPECIES_PALPITOAD";
   "SPECIES_SEISMITOAD";
   "SPECIES_THROH";
   "SPECIES_SAWK";
   "SPECIES_SEWADDLE";
   "SPECIES_SWADLOON";
   "SPECIES_LEAVANNY";
   "SPECIES_VENIPEDE";
   "SPECIES_WHIRLIPEDE";
   "SPECIES_SCOLIPEDE";
   "SPECIES_COTTONEE";
   "SPECIES_WHIMSICOTT";
   "SPECIES_PETILIL";
   "SPECIES_LILLIGANT";
   "SPECIES_BASCULIN";
   "SPECIES_SANDILE";
   "SPECIES_KROKOROK";
   "SPECIES_KROOKODILE";
   "SPECIES_DARUMAKA";
   "SPECIES_DARMANITAN";
   "SPECIES_MARACTUS";
   "SPECIES_DWEBBLE";
   "SPECIES_CRUSTLE";
   "SPECIES_SCRAGGY";
   "SPECIES_SCRAFTY";
   "SPECIES_SIGILYPH";
   "SPECIES_YAMASK";
   "SPECIES_COFAGRIGUS";
   "SPECIES_TIRTOUGA";
   "SPECIES_CARRACOSTA";
   "SPECIES_ARCHEN";
   "SPECIES_ARCHEOPS";
   "SPECIES_TRUBBISH";
   "SPECIES_GARBODOR";
   "SPECIES_ZORUA";
   "SPECIES_ZOROARK";
   "SPECIES_MINCCINO";
   "SPECIES_CINCCINO";
   "SPECIES_GOTHITA";
   "SPECIES_GOTHORITA";
   "SPECIES_GOTHITELLE";
   "SPECIES_SOLOSIS";
   "SPECIES_DUOSION";
   "SPECIES_REUNICLUS";
   "SPECIES_DUCKLETT";
   "SPECIES_SWANNA";
   "SPECIES_VANILLITE";
   "SPECIES_VANILLISH";
   "SPECIES_VANILLUXE";
   "SPECIES_DEERLING";
   "SPECIES_SAWSBUCK";
   "SPECIES_EMOLGA";
   "SPECIES_KARRABLAST";
   "SPECIES_ESCAVALIER";
   "SPECIES_FOONGUS";
   "SPECIES_AMOONGUSS";
   "SPECIES_FRILLISH";
   "SPECIES_JELLICENT";
   "SPECIES_ALOMOMOLA";
   "SPECIES_JOLTIK";
   "SPECIES_GALVANTULA";
   "SPECIES_FERROSEED";
   "SPECIES_FERROTHORN";
   "SPECIES_KLINK";
   "SPECIES_KLANG";
   "SPECIES_KLINKLANG";
   "SPECIES_TYNAMO";
   "SPECIES_EELEKTRIK";
   "SPECIES_EELEKTROSS";
   "SPECIES_ELGYEM";
   "SPECIES_BEHEEYEM";
   "SPECIES_LITWICK";
   "SPECIES_LAMPENT";
   "SPECIES_CHANDELURE";
   "SPECIES_AXEW";
   "SPECIES_FRAXURE";
   "SPECIES_HAXORUS";
   "SPECIES_CUBCHOO";
   "SPECIES_BEARTIC";
   "SPECIES_CRYOGONAL";
   "SPECIES_SHELMET";
   "SPECIES_ACCELGOR";
   "SPECIES_STUNFISK";
   "SPECIES_MIENFOO";
   "SPECIES_MIENSHAO";
   "SPECIES_DRUDDIGON";
   "SPECIES_GOLETT";
   "SPECIES_GOLURK";
   "SPECIES_PAWNIARD";
   "SPECIES_BISHARP";
   "SPECIES_BOUFFALANT";
   "SPECIES_RUFFLET";
   "SPECIES_BRAVIARY";
   "SPECIES_VULLABY";
   "SPECIES_MANDIBUZZ";
   "SPECIES_HEATMOR";
   "SPECIES_DURANT";
   "SPECIES_DEINO";
   "SPECIES_ZWEILOUS";
   "SPECIES_HYDREIGON";
   "SPECIES_LARVESTA";
   "SPECIES_VOLCARONA";
   "SPECIES_COBALION";
   "SPECIES_TERRAKION";
   "SPECIES_VIRIZION";
   "SPECIES_TORNADUS";
   "SPECIES_THUNDURUS";
   "SPECIES_RESHIRAM";
   "SPECIES_ZEKROM";
   "SPECIES_LANDORUS";
   "SPECIES_KYUREM";
   "SPECIES_KELDEO";
   "SPECIES_MELOETTA";
   "SPECIES_GENESECT";
   "SPECIES_CHESPIN";
   "SPECIES_QUILLADIN";
   "SPECIES_CHESNAUGHT";
   "SPECIES_FENNEKIN";
   "SPECIES_BRAIXEN";
   "SPECIES_DELPHOX";
   "SPECIES_FROAKIE";
   "SPECIES_FROGADIER";
   "SPECIES_GRENINJA";
   "SPECIES_BUNNELBY";
   "SPECIES_DIGGERSBY";
   "SPECIES_FLETCHLING";
   "SPECIES_FLETCHINDER";
   "SPECIES_TALONFLAME";
   "SPECIES_SCATTERBUG";
   "SPECIES_SPEWPA";
   "SPECIES_VIVILLON";
   "SPECIES_LITLEO";
   "SPECIES_PYROAR";
   "SPECIES_FLABÉBÉ";
   "SPECIES_FLOETTE";
   "SPECIES_FLORGES";
   "SPECIES_SKIDDO";
   "SPECIES_GOGOAT";
   "SPECIES_PANCHAM";
   "SPECIES_PANGORO";
   "SPECIES_FURFROU";
   "SPECIES_ESPURR";
   "SPECIES_MEOWSTIC";
   "SPECIES_HONEDGE";
   "SPECIES_DOUBLADE";
   "SPECIES_AEGISLASH";
   "SPECIES_SPRITZEE";
   "SPECIES_AROMATISSE";
   "SPECIES_SWIRLIX";
   "SPECIES_SLURPUFF";
   "SPECIES_INKAY";
   "SPECIES_MALAMAR";
   "SPECIES_BINACLE";
   "SPECIES_BARBARACLE";
   "SPECIES_SKRELP";
   "SPECIES_DRAGALGE";
   "SPECIES_CLAUNCHER";
   "SPECIES_CLAWITZER";
   "SPECIES_HELIOPTILE";
   "SPECIES_HELIOLISK";
   "SPECIES_TYRUNT";
   "SPECIES_TYRANTRUM";
   "SPECIES_AMAURA";
   "SPECIES_AURORUS";
   "SPECIES_SYLVEON";
   "SPECIES_HAWLUCHA";
   "SPECIES_DEDENNE";
   "SPECIES_CARBINK";
   "SPECIES_GOOMY";
   "SPECIES_SLIGGOO";
   "SPECIES_GOODRA";
   "SPECIES_KLEFKI";
   "SPECIES_PHANTUMP";
   "SPECIES_TREVENANT";
   "SPECIES_PUMPKABOO";
   "SPECIES_GOURGEIST";
   "SPECIES_BERGMITE";
   "SPECIES_AVALUGG";
   "SPECIES_NOIBAT";
   "SPECIES_NOIVERN";
   "SPECIES_XERNEAS";
   "SPECIES_YVELTAL";
   "SPECIES_ZYGARDE";
   "SPECIES_DIANCIE";
   "SPECIES_HOOPA";
   "SPECIES_VOLCANION";
   "SPECIES_ROWLET";
   "SPECIES_DARTRIX";
   "SPECIES_DECIDUEYE";
   "SPECIES_LITTEN";
   "SPECIES_TORRACAT";
   "SPECIES_INCINEROAR";
   "SPECIES_POPPLIO";
   "SPECIES_BRIONNE";
   "SPECIES_PRIMARINA";
   "SPECIES_PIKIPEK";
   "SPECIES_TRUMBEAK";
   "SPECIES_TOUCANNON";
   "SPECIES_YUNGOOS";
   "SPECIES_GUMSHOOS";
   "SPECIES_GRUBBIN";
   "SPECIES_CHARJABUG";
   "SPECIES_VIKAVOLT";
   "SPECIES_CRABRAWLER";
   "SPECIES_CRABOMINABLE";
   "SPECIES_ORICORIO";
   "SPECIES_CUTIEFLY";
   "SPECIES_RIBOMBEE";
   "SPECIES_ROCKRUFF";
   "SPECIES_LYCANROC";
   "SPECIES_WISHIWASHI";
   "SPECIES_MAREANIE";
   "SPECIES_TOXAPEX";
   "SPECIES_MUDBRAY";
   "SPECIES_MUDSDALE";
   "SPECIES_DEWPIDER";
   "SPECIES_ARAQUANID";
   "SPECIES_FOMANTIS";
   "SPECIES_LURANTIS";
   "SPECIES_MORELULL";
   "SPECIES_SHIINOTIC";
   "SPECIES_SALANDIT";
   "SPECIES_SALAZZLE";
   "SPECIES_STUFFUL";
   "SPECIES_BEWEAR";
   "SPECIES_BOUNSWEET";
   "SPECIES_STEENEE";
   "SPECIES_TSAREENA";
   "SPECIES_COMFEY";
   "SPECIES_ORANGURU";
   "SPECIES_PASSIMIAN";
   "SPECIES_WIMPOD";
   "SPECIES_GOLISOPOD";
   "SPECIES_SANDYGAST";
   "SPECIES_PALOSSAND";
   "SPECIES_PYUKUMUKU";
   "SPECIES_TYPE: NULL";
   "SPECIES_SILVALLY";
   "SPECIES_MINIOR";
   "SPECIES_KOMALA";
   "SPECIES_TURTONATOR";
   "SPECIES_TOGEDEMARU";
   "SPECIES_MIMIKYU";
   "SPECIES_BRUXISH";
   "SPECIES_DRAMPA";
   "SPECIES_DHELMISE";
   "SPECIES_JANGMO-O";
   "SPECIES_HAKAMO-O";
   "SPECIES_KOMMO-O";
   "SPECIES_TAPU KOKO";
   "SPECIES_TAPU LELE";
   "SPECIES_TAPU BULU";
   "SPECIES_TAPU FINI";
   "SPECIES_COSMOG";
   "SPECIES_COSMOEM";
   "SPECIES_SOLGALEO";
   "SPECIES_LUNALA";
   "SPECIES_NIHILEGO";
   "SPECIES_BUZZWOLE";
   "SPECIES_PHEROMOSA";
   "SPECIES_XURKITREE";
   "SPECIES_CELESTEELA";
   "SPECIES_KARTANA";
   "SPECIES_GUZZLORD";
   "SPECIES_NECROZMA";
   "SPECIES_MAGEARNA";
   "SPECIES_MARSHADOW";
   "SPECIES_POIPOLE";
   "SPECIES_NAGANADEL";
   "SPECIES_STAKATAKA";
   "SPECIES_BLACEPHALON";
   "SPECIES_ZERAORA";
   "SPECIES_MELTAN";
   "SPECIES_MELMETAL";
   "SPECIES_GROOKEY";
   "SPECIES_THWACKEY";
   "SPECIES_RILLABOOM";
   "SPECIES_SCORBUNNY";
   "SPECIES_RABOOT";
   "SPECIES_CINDERACE";
   "SPECIES_SOBBLE";
   "SPECIES_DRIZZILE";
   "SPECIES_INTELEON";
   "SPECIES_SKWOVET";
   "SPECIES_GREEDENT";
   "SPECIES_ROOKIDEE";
   "SPECIES_CORVISQUIRE";
   "SPECIES_CORVIKNIGHT";
   "SPECIES_BLIPBUG";
   "SPECIES_DOTTLER";
   "SPECIES_ORBEETLE";
   "SPECIES_NICKIT";
   "SPECIES_THIEVUL";
   "SPECIES_GOSSIFLEUR";
   "SPECIES_ELDEGOSS";
   "SPECIES_WOOLOO";
   "SPECIES_DUBWOOL";
   "SPECIES_CHEWTLE";
   "SPECIES_DREDNAW";
   "SPECIES_YAMPER";
   "SPECIES_BOLTUND";
   "SPECIES_ROLYCOLY";
   "SPECIES_CARKOL";
   "SPECIES_COALOSSAL";
   "SPECIES_APPLIN";
   "SPECIES_FLAPPLE";
   "SPECIES_APPLETUN";
   "SPECIES_SILICOBRA";
   "SPECIES_SANDACONDA";
   "SPECIES_CRAMORANT";
   "SPECIES_ARROKUDA";
   "SPECIES_BARRASKEWDA";
   "SPECIES_TOXEL";
   "SPECIES_TOXTRICITY";
   "SPECIES_SIZZLIPEDE";
   "SPECIES_CENTISKORCH";
   "SPECIES_CLOBBOPUS";
   "SPECIES_GRAPPLOCT";
   "SPECIES_SINISTEA";
   "SPECIES_POLTEAGEIST";
   "SPECIES_HATENNA";
   "SPECIES_HATTREM";
   "SPECIES_HATTERENE";
   "SPECIES_IMPIDIMP";
   "SPECIES_MORGREM";
   "SPECIES_GRIMMSNARL";
   "SPECIES_OBSTAGOON";
   "SPECIES_PERRSERKER";
   "SPECIES_CURSOLA";
   "SPECIES_SIRFETCH’D";
   "SPECIES_MR. RIME";
   "SPECIES_RUNERIGUS";
   "SPECIES_MILCERY";
   "SPECIES_ALCREMIE";
   "SPECIES_FALINKS";
   "SPECIES_PINCURCHIN";
   "SPECIES_SNOM";
   "SPECIES_FROSMOTH";
   "SPECIES_STONJOURNER";
   "SPECIES_EISCUE";
   "SPECIES_INDEEDEE";
   "SPECIES_MORPEKO";
   "SPECIES_CUFANT";
   "SPECIES_COPPERAJAH";
   "SPECIES_DRACOZOLT";
   "SPECIES_ARCTOZOLT";
   "SPECIES_DRACOVISH";
   "SPECIES_ARCTOVISH";
   "SPECIES_DURALUDON";
   "SPECIES_DREEPY";
   "SPECIES_DRAKLOAK";
   "SPECIES_DRAGAPULT";
   "SPECIES_ZACIAN";
   "SPECIES_ZAMAZENTA";
   "SPECIES_ETERNATUS";
   "SPECIES_KUBFU";
   "SPECIES_URSHIFU";
   "SPECIES_ZARUDE";
   "SPECIES_REGIELEKI";
   "SPECIES_REGIDRAGO";
   "SPECIES_GLASTRIER";
   "SPECIES_SPECTRIER";
   "SPECIES_CALYREX";
   "SPECIES_WYRDEER";
   "SPECIES_KLEAVOR";
   "SPECIES_URSALUNA";
   "SPECIES_BASCULEGION";
   "SPECIES_SNEASLER";
   "SPECIES_OVERQWIL";
   "SPECIES_ENAMORUS";
   "SPECIES_SPRIGATITO";
   "SPECIES_FLORAGATO";
   "SPECIES_MEOWSCARADA";
   "SPECIES_FUECOCO";
   "SPECIES_CROCALOR";
   "SPECIES_SKELEDIRGE";
   "SPECIES_QUAXLY";
   "SPECIES_QUAXWELL";
   "SPECIES_QUAQUAVAL";
   "SPECIES_LECHONK";
   "SPECIES_OINKOLOGNE";
   "SPECIES_TAROUNTULA";
   "SPECIES_SPIDOPS";
   "SPECIES_NYMBLE";
   "SPECIES_LOKIX";
   "SPECIES_PAWMI";
   "SPECIES_PAWMO";
   "SPECIES_PAWMOT";
   "SPECIES_TANDEMAUS";
   "SPECIES_MAUSHOLD";
   "SPECIES_FIDOUGH";
   "SPECIES_DACHSBUN";
   "SPECIES_SMOLIV";
   "SPECIES_DOLLIV";
   "SPECIES_ARBOLIVA";
   "SPECIES_SQUAWKABILLY";
   "SPECIES_NACLI";
   "SPECIES_NACLSTACK";
   "SPECIES_GARGANACL";
   "SPECIES_CHARCADET";
   "SPECIES_ARMAROUGE";
   "SPECIES_CERULEDGE";
   "SPECIES_TADBULB";
   "SPECIES_BELLIBOLT";
   "SPECIES_WATTREL";
   "SPECIES_KILOWATTREL";
   "SPECIES_MASCHIFF";
   "SPECIES_MABOSSTIFF";
   "SPECIES_SHROODLE";
   "SPECIES_GRAFAIAI";
   "SPECIES_BRAMBLIN";
   "SPECIES_BRAMBLEGHAST";
   "SPECIES_TOEDSCOOL";
   "SPECIES_TOEDSCRUEL";
   "SPECIES_KLAWF";
   "SPECIES_CAPSAKID";
   "SPECIES_SCOVILLAIN";
   "SPECIES_RELLOR";
   "SPECIES_RABSCA";
   "SPECIES_FLITTLE";
   "SPECIES_ESPATHRA";
   "SPECIES_TINKATINK";
   "SPECIES_TINKATUFF";
   "SPECIES_TINKATON";
   "SPECIES_WIGLETT";
   "SPECIES_WUGTRIO";
   "SPECIES_BOMBIRDIER";
   "SPECIES_FINIZEN";
   "SPECIES_PALAFIN";
   "SPECIES_VAROOM";
   "SPECIES_REVAVROOM";
   "SPECIES_CYCLIZAR";
   "SPECIES_ORTHWORM";
   "SPECIES_GLIMMET";
   "SPECIES_GLIMMORA";
   "SPECIES_GREAVARD";
   "SPECIES_HOUNDSTONE";
   "SPECIES_FLAMIGO";
   "SPECIES_CETODDLE";
   "SPECIES_CETITAN";
   "SPECIES_VELUZA";
   "SPECIES_DONDOZO";
   "SPECIES_TATSUGIRI";
   "SPECIES_ANNIHILAPE";
   "SPECIES_CLODSIRE";
   "SPECIES_FARIGIRAF";
   "SPECIES_DUDUNSPARCE";
   "SPECIES_KINGAMBIT";
   "SPECIES_GREAT TUSK";
   "SPECIES_SCREAM TAIL";
   "SPECIES_BRUTE BONNET";
   "SPECIES_FLUTTER MANE";
   "SPECIES_SLITHER WING";
   "SPECIES_SANDY SHOCKS";
   "SPECIES_IRON TREADS";
   "SPECIES_IRON BUNDLE";
   "SPECIES_IRON HANDS";
   "SPECIES_IRON JUGULIS";
   "SPECIES_IRON MOTH";
   "SPECIES_IRON THORNS";
   "SPECIES_FRIGIBAX";
   "SPECIES_ARCTIBAX";
   "SPECIES_BAXCALIBUR";
   "SPECIES_GIMMIGHOUL";
   "SPECIES_GHOLDENGO";
   "SPECIES_WO-CHIEN";
   "SPECIES_CHIEN-PAO";
   "SPECIES_TING-LU";
   "SPECIES_CHI-YU";
   "SPECIES_ROARING MOON";
   "SPECIES_IRON VALIANT";
   "SPECIES_KORAIDON";
   "SPECIES_MIRAIDON";
   "SPECIES_WALKING WAKE";
   "SPECIES_IRON LEAVES"].

(** resources/encount/rs_wild_encounters.json *)
Definition rs_encounters : list encounter :=
  [mkEnc "MAP_PETALBURG_CITY" "PetalburgCity_Ruby"
     None
     (Some (mkMons 1 [mkMon 20 30 SPECIES_MARILL; mkMon 10 20 SPECIES_MARILL; mkMon 30 35 SPECIES_MARILL; mkMon 5 10 SPECIES_MARILL; mkMon 5 10 SPECIES_MARILL]))
     None
     (Some (mkMons 10 [mkMon 5 10 SPECIES_MAGIKARP; mkMon 5 10 SPECIES_GOLDEEN; mkMon 10 30 SPECIES_MAGIKARP; mkMon 10 30 SPECIES_GOLDEEN; mkMon 10 30 SPECIES_CORPHISH; mkMon 25 30 SPECIES_CORPHISH; mkMon 30 35 SPECIES_CORPHISH; mkMon 20 25 SPECIES_CORPHISH; mkMon 35 40 SPECIES_CORPHISH; mkMon 40 45 SPECIES_CORPHISH]));
   mkEnc "MAP_SLATEPORT_CITY" "SlateportCity_Ruby"
     None
     (Some (mkMons 4 [mkMon 5 35 SPECIES_TENTACOOL; mkMon 10 30 SPECIES_WINGULL; mkMon 15 25 SPECIES_WINGULL; mkMon 25 30 SPECIES_PELIPPER; mkMon 25 30 SPECIES_PELIPPER]))
     None
     (Some (mkMons 10 [mkMon 5 10 SPECIES_MAGIKARP; mkMon 5 10 SPECIES_TENTACOOL; mkMon 10 30 SPECIES_MAGIKARP; mkMon 10 30 SPECIES_TENTACOOL; mkMon 10 30 SPECIES_WAILMER; mkMon 25 30 SPECIES_WAILMER; mkMon 30 35 SPECIES_WAILMER; mkMon 20 25 SPECIES_WAILMER; mkMon 35 40 SPECIES_WAILMER; mkMon 40 45 SPECIES_WAILMER]));
   mkEnc "MAP_LILYCOVE_CITY" "LilycoveCity_Ruby"
     None
     (Some (mkMons 4 [mkMon 5 35 SPECIES_TENTACOOL; mkMon 10 30 SPECIES_WINGULL; mkMon 15 25 SPECIES_WINGULL; mkMon 25 30 SPECIES_PELIPPER; mkMon 25 30 SPECIES_PELIPPER]))
     None
     (Some (mkMons 10 [mkMon 5 10 SPECIES_MAGIKARP; mkMon 5 10 SPECIES_TENTACOOL; mkMon 10 30 SPECIES_MAGIKARP; mkMon 10 30 SPECIES_TENTACOOL; mkMon 10 30 SPECIES_WAILMER; mkMon 25 30 SPECIES_WAILMER; mkMon 30 35 SPECIES_WAILMER; mkMon 25 30 SPECIES_STARYU; mkMon 35 40 SPECIES_WAILMER; mkMon 40 45 SPECIES_WAILMER]));
   mkEnc "MAP_MOSSDEEP_CITY" "MossdeepCity_Ruby"
     None
     (Some (mkMons 4 [mkMon 5 35 SPECIES_TENTACOOL; mkMon 10 30 SPECIES_WINGULL; mkMon 15 25 SPECIES_WINGULL; mkMon 25 30 SPECIES_PELIPPER; mkMon 25 30 SPECIES_PELIPPER]))
     None
     (Some (mkMons 10 [mkMon 5 10 SPECIES_MAGIKARP; mkMon 5 10 SPECIES_TENTACOOL; mkMon 10 30 SPECIES_MAGIKARP; mkMon 10 30 SPECIES_TENTACOOL; mkMon 10 30 SPECIES_WAILMER; mkMon 30 35 SPECIES_SHARPEDO; mkMon 30 35 SPECIES_WAILMER; mkMon 25 30 SPECIES_WAILMER; mkMon 35 40 SPECIES_WAILMER; mkMon 40 45 SPECIES_WAILMER]));
   mkEnc "MAP_SOOTOPOLIS_CITY" "SootopolisCity_Ruby"
     None
     (Some (mkMons 1 [mkMon 5 35 SPECIES_MAGIKARP; mkMon 10 30 SPECIES_MAGIKARP; mkMon 15 25 SPECIES_MAGIKARP; mkMon 25 30 SPECIES_MAGIKARP; mkMon 25 30 SPECIES_MAGIKARP]))
     None
     (Some (mkMons 10 [mkMon 5 10 SPECIES_MAGIKARP; mkMon 10 15 SPECIES_MAGIKARP; mkMon 10 30 SPECIES_MAGIKARP; mkMon 10 30 SPECIES_MAGIKARP; mkMon 10 30 SPECIES_MAGIKARP; mkMon 30 35 SPECIES_MAGIKARP; mkMon 30 35 SPECIES_MAGIKARP; mkMon 35 40 SPECIES_GYARADOS; mkMon 35 45 SPECIES_GYARADOS; mkMon 5 45 SPECIES_GYARADOS]));
   mkEnc "MAP_EVER_GRANDE_CITY" "EverGrandeCity_Ruby"
     None
     (Some (mkMons 4 [mkMon 5 35 SPECIES_TENTACOOL; mkMon 10 30 SPECIES_WINGULL; mkMon 15 25 SPECIES_WINGULL; mkMon 25 30 SPECIES_PELIPPER; mkMon 25 30 SPECIES_PELIPPER]))
     None
     (Some (mkMons 10 [mkMon 5 10 SPECIES_MAGIKARP; mkMon 5 10 SPECIES_TENTACOOL; mkMon 10 30 SPECIES_MAGIKARP; mkMon 10 30 SPECIES_LUVDISC; mkMon 10 30 SPECIES_WAILMER; mkMon 30 35 SPECIES_LUVDISC; mkMon 30 35 SPECIES_WAILMER; mkMon 30 35 SPECIES_CORSOLA; mkMon 35 40 SPECIES_WAILMER; mkMon 40 45 SPECIES_WAILMER]));
   mkEnc "MAP_METEOR_FALLS_1F_1R" "MeteorFalls_1F_1R_Ruby"
     (Some (mkMons 10 [mkMon 16 16 SPECIES_ZUBAT; mkMon 17 17 SPECIES_ZUBAT; mkMon 18 18 SPECIES_ZUBAT; mkMon 15 15 SPECIES_ZUBAT; mkMon 14 14 SPECIES_ZUBAT; mkMon 16 16 SPECIES_SOLROCK; mkMon 18 18 SPECIES_SOLROCK; mkMon 14 14 SPECIES_SOLROCK; mkMon 19 19 SPECIES_ZUBAT; mkMon 20 20 SPECIES_ZUBAT; mkMon 19 19 SPECIES_ZUBAT; mkMon 20 20 SPECIES_ZUBAT]))
     (Some (mkMons 4 [mkMon 5 35 SPECIES_ZUBAT; mkMon 30 35 SPECIES_ZUBAT; mkMon 25 35 SPECIES_SOLROCK; mkMon 15 25 SPECIES_SOLROCK; mkMon 5 15 SPECIES_SOLROCK]))
     None
     (Some (mkMons 30 [mkMon 5 10 SPECIES_MAGIKARP; mkMon 5 10 SPECIES_GOLDEEN; mkMon 10 30 SPECIES_MAGIKARP; mkMon 10 30 SPECIES_GOLDEEN; mkMon 10 30 SPECIES_BARBOACH; mkMon 25 30 SPECIES_BARBOACH; mkMon 30 35 SPECIES_BARBOACH; mkMon 20 25 SPECIES_BARBOACH; mkMon 35 40 SPECIES_BARBOACH; mkMon 40 45 SPECIES_BARBOACH]));
   mkEnc "MAP_METEOR_FALLS_1F_2R" "MeteorFalls_1F_2R_Ruby"
     (Some (mkMons 10 [mkMon 33 33 SPECIES_GOLBAT; mkMon 35 35 SPECIES_GOLBAT; mkMon 33 33 SPECIES_GOLBAT; mkMon 35 35 SPECIES_SOLROCK; mkMon 33 33 SPECIES_SOLROCK; mkMon 37 37 SPECIES_SOLROCK; mkMon 35 35 SPECIES_GOLBAT; mkMon 39 39 SPECIES_SOLROCK; mkMon 38 38 SPECIES_GOLBAT; mkMon 40 40 SPECIES_GOLBAT; mkMon 38 38 SPECIES_GOLBAT; mkMon 40 40 SPECIES_GOLBAT]))
     (Some (mkMons 4 [mkMon 30 35 SPECIES_GOLBAT; mkMon 30 35 SPECIES_GOLBAT; mkMon 25 35 SPECIES_SOLROCK; mkMon 15 25 SPECIES_SOLROCK; mkMon 5 15 SPECIES_SOLROCK]))
     None
     (Some (mkMons 30 [mkMon 5 10 SPECIES_MAGIKARP; mkMon 5 10 SPECIES_GOLDEEN; mkMon 10 30 SPECIES_MAGIKARP; mkMon 10 30 SPECIES_GOLDEEN; mkMon 10 30 SPECIES_BARBOACH; mkMon 25 30 SPECIES_BARBOACH; mkMon 30 35 SPECIES_BARBOACH; mkMon 30 35 SPECIES_WHISCASH; mkMon 35 40 SPECIES_WHISCASH; mkMon 40 45 SPECIES_WHISCASH]));
   mkEnc "MAP_METEOR_FALLS_B1F_1R" "MeteorFalls_B1F_1R_Ruby"
     (Some (mkMons 10 [mkMon 33 33 SPECIES_GOLBAT; mkMon 35 35 SPECIES_GOLBAT; mkMon 33 33 SPECIES_GOLBAT; mkMon 35 35 SPECIES_SOLROCK; mkMon 33 33 SPECIES_SOLROCK; mkMon 37 37 SPECIES_SOLROCK; mkMon 35 35 SPECIES_GOLBAT; mkMon 39 39 SPECIES_SOLROCK; mkMon 38 38 SPECIES_GOLBAT; mkMon 40 40 SPECIES_GOLBAT; mkMon 38 38 SPECIES_GOLBAT; mkMon 40 40 SPECIES_GOLBAT]))
     (Some (mkMons 4 [mkMon 30 35 SPECIES_GOLBAT; mkMon 30 35 SPECIES_GOLBAT; mkMon 25 35 SPECIES_SOLROCK; mkMon 15 25 SPECIES_SOLROCK; mkMon 5 15 SPECIES_SOLROCK]))
     None
     (Some (mkMons 30 [mkMon 5 10 SPECIES_MAGIKARP; mkMon 5 10 SPECIES_GOLDEEN; mkMon 10 30 SPECIES_MAGIKARP; mkMon 10 30 SPECIES_GOLDEEN; mkMon 10 30 SPECIES_BARBOACH; mkMon 25 30 SPECIES_BARBOACH; mkMon 30 35 SPECIES_BARBOACH; mkMon 30 35 SPECIES_WHISCASH; mkMon 35 40 SPECIES_WHISCASH; mkMon 40 45 SPECIES_WHISCASH]));
   mkEnc "MAP_METEOR_FALLS_B1F_2R" "MeteorFalls_B1F_2R_Ruby"
     (Some (mkMons 10 [mkMon 33 33 SPECIES_GOLBAT; mkMon 35 35 SPECIES_GOLBAT; mkMon 30 30 SPECIES_BAGON; mkMon 35 35 SPECIES_SOLROCK; mkMon 35 35 SPECIES_BAGON; mkMon 37 37 SPECIES_SOLROCK; mkMon 25 25 SPECIES_BAGON; mkMon 39 39 SPECIES_SOLROCK; mkMon 38 38 SPECIES_GOLBAT; mkMon 40 40 SPECIES_GOLBAT; mkMon 38 38 SPECIES_GOLBAT; mkMon 40 40 SPECIES_GOLBAT]))
     (Some (mkMons 4 [mkMon 30 35 SPECIES_GOLBAT; mkMon 30 35 SPECIES_GOLBAT; mkMon 25 35 SPECIES_SOLROCK; mkMon 15 25 SPECIES_SOLROCK; mkMon 5 15 SPECIES_SOLROCK]))
     None
     (Some (mkMons 30 [mkMon 5 10 SPECIES_MAGIKARP; mkMon 5 10 SPECIES_GOLDEEN; mkMon 10 30 SPECIES_MAGIKARP; mkMon 10 30 SPECIES_GOLDEEN; mkMon 10 30 SPECIES_BARBOACH; mkMon 25 30 SPECIES_BARBOACH; mkMon 30 35 SPECIES_BARBOACH; mkMon 30 35 SPECIES_WHISCASH; mkMon 35 40 SPECIES_WHISCASH; mkMon 40 45 SPECIES_WHISCASH]));
   mkEnc "MAP_RUSTURF_TUNNEL" "RusturfTunnel_Ruby"
     (Some (mkMons 10 [mkMon 6 6 SPECIES_WHISMUR; mkMon 7 7 SPECIES_WHISMUR; mkMon 6 6 SPECIES_WHISMUR; mkMon 6 6 SPECIES_WHISMUR; mkMon 7 7 SPECIES_WHISMUR; mkMon 7 7 SPECIES_WHISMUR; mkMon 5 5 SPECIES_WHISMUR; mkMon 8 8 SPECIES_WHISMUR; mkMon 5 5 SPECIES_WHISMUR; mkMon 8 8 SPECIES_WHISMUR; mkMon 5 5 SPECIES_WHISMUR; mkMon 8 8 SPECIES_WHISMUR]))
     None
     None
     None;
   mkEnc "MAP_GRANITE_CAVE_1F" "GraniteCave_1F_Ruby"
     (Some (mkMons 10 [mkMon 7 7 SPECIES_ZUBAT; mkMon 8 8 SPECIES_MAKUHITA; mkMon 7 7 SPECIES_MAKUHITA; mkMon 8 8 SPECIES_ZUBAT; mkMon 9 9 SPECIES_MAKUHITA; mkMon 8 8 SPECIES_ABRA; mkMon 10 10 SPECIES_MAKUHITA; mkMon 6 6 SPECIES_MAKUHITA; mkMon 7 7 SPECIES_GEODUDE; mkMon 8 8 SPECIES_GEODUDE; mkMon 6 6 SPECIES_GEODUDE; mkMon 9 9 SPECIES_GEODUDE]))
     None
     None
     None;
   mkEnc "MAP_GRANITE_CAVE_B1F" "GraniteCave_B1F_Ruby"
     (Some (mkMons 10 [mkMon 9 9 SPECIES_ZUBAT; mkMon 10 10 SPECIES_ARON; mkMon 9 9 SPECIES_ARON; mkMon 11 11 SPECIES_ARON; mkMon 10 10 SPECIES_ZUBAT; mkMon 9 9 SPECIES_ABRA; mkMon 10 10 SPECIES_MAKUHITA; mkMon 11 11 SPECIES_MAKUHITA; mkMon 10 10 SPECIES_MAWILE; mkMon 10 10 SPECIES_MAWILE; mkMon 9 9 SPECIES_MAWILE; mkMon 11 11 SPECIES_MAWILE]))
     None
     None
     None;
   mkEnc "MAP_GRANITE_CAVE_B2F" "GraniteCave_B2F_Ruby"
     (Some (mkMons 10 [mkMon 10 10 SPECIES_ZUBAT; mkMon 11 11 SPECIES_ARON; mkMon 10 10 SPECIES_ARON; mkMon 11 11 SPECIES_ZUBAT; mkMon 12 12 SPECIES_ARON; mkMon 10 10 SPECIES_ABRA; mkMon 10 10 SPECIES_MAWILE; mkMon 11 11 SPECIES_MAWILE; mkMon 12 12 SPECIES_MAWILE; mkMon 10 10 SPECIES_MAWILE; mkMon 12 12 SPECIES_MAWILE; mkMon 10 10 SPECIES_MAWILE]))
     None
     (Some (mkMons 20 [mkMon 10 15 SPECIES_GEODUDE; mkMon 10 20 SPECIES_NOSEPASS; mkMon 5 10 SPECIES_GEODUDE; mkMon 15 20 SPECIES_GEODUDE; mkMon 15 20 SPECIES_GEODUDE]))
     None;
   mkEnc "MAP_GRANITE_CAVE_STEVENS_ROOM" "GraniteCave_StevensRoom_Ruby"
     (Some (mkMons 10 [mkMon 7 7 SPECIES_ZUBAT; mkMon 8 8 SPECIES_MAKUHITA; mkMon 7 7 SPECIES_MAKUHITA; mkMon 8 8 SPECIES_ZUBAT; mkMon 9 9 SPECIES_MAKUHITA; mkMon 8 8 SPECIES_ABRA; mkMon 10 10 SPECIES_MAKUHITA; mkMon 6 6 SPECIES_MAKUHITA; mkMon 7 7 SPECIES_ARON; mkMon 8 8 SPECIES_ARON; mkMon 7 7 SPECIES_ARON; mkMon 8 8 SPECIES_ARON]))
     None
     None
     None;
   mkEnc "MAP_PETALBURG_WOODS" "PetalburgWoods_Ruby"
     (Some (mkMons 20 [mkMon 5 5 SPECIES_ZIGZAGOON; mkMon 5 5 SPECIES_WURMPLE; mkMon 5 5 SPECIES_SHROOMISH; mkMon 6 6 SPECIES_ZIGZAGOON; mkMon 5 5 SPECIES_SILCOON; mkMon 5 5 SPECIES_CASCOON; mkMon 6 6 SPECIES_WURMPLE; mkMon 6 6 SPECIES_SHROOMISH; mkMon 5 5 SPECIES_TAILLOW; mkMon 5 5 SPECIES_SLAKOTH; mkMon 6 6 SPECIES_TAILLOW; mkMon 6 6 SPECIES_SLAKOTH]))
     None
     None
     None;
   mkEnc "MAP_JAGGED_PASS" "JaggedPass_Ruby"
     (Some (mkMons 20 [mkMon 19 19 SPECIES_NUMEL; mkMon 19 19 SPECIES_NUMEL; mkMon 19 19 SPECIES_MACHOP; mkMon 18 18 SPECIES_NUMEL; mkMon 18 18 SPECIES_SPOINK; mkMon 18 18 SPECIES_MACHOP; mkMon 19 19 SPECIES_SPOINK; mkMon 20 20 SPECIES_MACHOP; mkMon 20 20 SPECIES_NUMEL; mkMon 20 20 SPECIES_SPOINK; mkMon 20 20 SPECIES_NUMEL; mkMon 20 20 SPECIES_SPOINK]))
     None
     None
     None;
   mkEnc "MAP_FIERY_PATH" "FieryPath_Ruby"
     (Some (mkMons 10 [mkMon 15 15 SPECIES_NUMEL; mkMon 15 15 SPECIES_KOFFING; mkMon 16 16 SPECIES_NUMEL; mkMon 15 15 SPECIES_MACHOP; mkMon 15 15 SPECIES_TORKOAL; mkMon 15 15 SPECIES_SLUGMA; mkMon 16 16 SPECIES_KOFFING; mkMon 16 16 SPECIES_MACHOP; mkMon 14 14 SPECIES_TORKOAL; mkMon 16 16 SPECIES_TORKOAL; mkMon 14 14 SPECIES_GRIMER; mkMon 14 14 SPECIES_GRIMER]))
     None
     None
     None;
   mkEnc "MAP_MT_PYRE_1F" "MtPyre_1F_Ruby"
     (Some (mkMons 10 [mkMon 27 27 SPECIES_DUSKULL; mkMon 28 28 SPECIES_DUSKULL; mkMon 26 26 SPECIES_DUSKULL; mkMon 25 25 SPECIES_DUSKULL; mkMon 29 29 SPECIES_DUSKULL; mkMon 24 24 SPECIES_DUSKULL; mkMon 23 23 SPECIES_DUSKULL; mkMon 22 22 SPECIES_DUSKULL; mkMon 29 29 SPECIES_DUSKULL; mkMon 24 24 SPECIES_DUSKULL; mkMon 29 29 SPECIES_DUSKULL; mkMon 24 24 SPECIES_DUSKULL]))
     None
     None
     None;
   mkEnc "MAP_MT_PYRE_2F" "MtPyre_2F_Ruby"
     (Some (mkMons 10 [mkMon 27 27 SPECIES_DUSKULL; mkMon 28 28 SPECIES_DUSKULL; mkMon 26 26 SPECIES_DUSKULL; mkMon 25 25 SPECIES_DUSKULL; mkMon 29 29 SPECIES_DUSKULL; mkMon 24 24 SPECIES_DUSKULL; mkMon 23 23 SPECIES_DUSKULL; mkMon 22 22 SPECIES_DUSKULL; mkMon 29 29 SPECIES_DUSKULL; mkMon 24 24 SPECIES_DUSKULL; mkMon 29 29 SPECIES_DUSKULL; mkMon 24 24 SPECIES_DUSKULL]))
     None
     None
     None;
   mkEnc "MAP_MT_PYRE_3F" "MtPyre_3F_Ruby"
     (Some (mkMons 10 [mkMon 27 27 SPECIES_DUSKULL; mkMon 28 28 SPECIES_DUSKULL; mkMon 26 26 SPECIES_DUSKULL; mkMon 25 25 SPECIES_DUSKULL; mkMon 29 29 SPECIES_DUSKULL; mkMon 24 24 SPECIES_DUSKULL; mkMon 23 23 SPECIES_DUSKULL; mkMon 22 22 SPECIES_DUSKULL; mkMon 29 29 SPECIES_DUSKULL; mkMon 24 24 SPECIES_DUSKULL; mkMon 29 29 SPECIES_DUSKULL; mkMon 24 24 SPECIES_DUSKULL]))
     None
     None
     None;
   mkEnc "MAP_MT_PYRE_4F" "MtPyre_4F_Ruby"
     (Some (mkMons 10 [mkMon 27 27 SPECIES_DUSKULL; mkMon 28 28 SPECIES_DUSKULL; mkMon 26 26 SPECIES_DUSKULL; mkMon 25 25 SPECIES_DUSKULL; mkMon 29 29 SPECIES_DUSKULL; mkMon 24 24 SPECIES_DUSKULL; mkMon 23 23 SPECIES_DUSKULL; mkMon 22 22 SPECIES_DUSKULL; mkMon 27 27 SPECIES_SHUPPET; mkMon 27 27 SPECIES_SHUPPET; mkMon 25 25 SPECIES_SHUPPET; mkMon 29 29 SPECIES_SHUPPET]))
     None
     None
     None;
   mkEnc "MAP_MT_PYRE_5F" "MtPyre_5F_Ruby"
     (Some (mkMons 10 [mkMon 27 27 SPECIES_DUSKULL; mkMon 28 28 SPECIES_DUSKULL; mkMon 26 26 SPECIES_DUSKULL; mkMon 25 25 SPECIES_DUSKULL; mkMon 29 29 SPECIES_DUSKULL; mkMon 24 24 SPECIES_DUSKULL; mkMon 23 23 SPECIES_DUSKULL; mkMon 22 22 SPECIES_DUSKULL; mkMon 27 27 SPECIES_SHUPPET; mkMon 27 27 SPECIES_SHUPPET; mkMon 25 25 SPECIES_SHUPPET; mkMon 29 29 SPECIES_SHUPPET]))
     None
     None
     None;
   mkEnc "MAP_MT_PYRE_6F" "MtPyre_6F_Ruby"
     (Some (mkMons 10 [mkMon 27 27 SPECIES_DUSKULL; mkMon 28 28 SPECIES_DUSKULL; mkMon 26 26 SPECIES_DUSKULL; mkMon 25 25 SPECIES_DUSKULL; mkMon 29 29 SPECIES_DUSKULL; mkMon 24 24 SPECIES_DUSKULL; mkMon 23 23 SPECIES_DUSKULL; mkMon 22 22 SPECIES_DUSKULL; mkMon 27 27 SPECIES_SHUPPET; mkMon 27 27 SPECIES_SHUPPET; mkMon 25 25 SPECIES_SHUPPET; mkMon 29 29 SPECIES_SHUPPET]))
     None
     None
     None;
   mkEnc "MAP_MT_PYRE_EXTERIOR" "MtPyre_Exterior_Ruby"
     (Some (mkMons 10 [mkMon 27 27 SPECIES_DUSKULL; mkMon 27 27 SPECIES_MEDITITE; mkMon 28 28 SPECIES_DUSKULL; mkMon 29 29 SPECIES_MEDITITE; mkMon 29 29 SPECIES_DUSKULL; mkMon 27 27 SPECIES_VULPIX; mkMon 29 29 SPECIES_VULPIX; mkMon 25 25 SPECIES_VULPIX; mkMon 27 27 SPECIES_WINGULL; mkMon 27 27 SPECIES_WINGULL; mkMon 26 26 SPECIES_WINGULL; mkMon 28 28 SPECIES_WINGULL]))
     None
     None
     None;
   mkEnc "MAP_MT_PYRE_SUMMIT" "MtPyre_Summit_Ruby"
     (Some (mkMons 10 [mkMon 28 28 SPECIES_DUSKULL; mkMon 29 29 SPECIES_DUSKULL; mkMon 27 27 SPECIES_DUSKULL; mkMon 26 26 SPECIES_DUSKULL; mkMon 30 30 SPECIES_DUSKULL; mkMon 25 25 SPECIES_DUSKULL; mkMon 24 24 SPECIES_DUSKULL; mkMon 28 28 SPECIES_SHUPPET; mkMon 26 26 SPECIES_SHUPPET; mkMon 30 30 SPECIES_SHUPPET; mkMon 28 28 SPECIES_CHIMECHO; mkMon 28 28 SPECIES_CHIMECHO]))
     None
     None
     None;
   mkEnc "MAP_SEAFLOOR_CAVERN_ENTRANCE" "SeafloorCavern_Entrance_Ruby"
     None
     (Some (mkMons 4 [mkMon 5 35 SPECIES_TENTACOOL; mkMon 5 35 SPECIES_ZUBAT; mkMon 30 35 SPECIES_ZUBAT; mkMon 30 35 SPECIES_GOLBAT; mkMon 30 35 SPECIES_GOLBAT]))
     None
     (Some (mkMons 10 [mkMon 5 10 SPECIES_MAGIKARP; mkMon 5 10 SPECIES_TENTACOOL; mkMon 10 30 SPECIES_MAGIKARP; mkMon 10 30 SPECIES_TENTACOOL; mkMon 10 30 SPECIES_WAILMER; mkMon 25 30 SPECIES_WAILMER; mkMon 30 35 SPECIES_WAILMER; mkMon 20 25 SPECIES_WAILMER; mkMon 35 40 SPECIES_WAILMER; mkMon 40 45 SPECIES_WAILMER]));
   mkEnc "MAP_SEAFLOOR_CAVERN_ROOM1" "SeafloorCavern_Room1_Ruby"
     (Some (mkMons 4 [mkMon 30 30 SPECIES_ZUBAT; mkMon 31 31 SPECIES_ZUBAT; mkMon 32 32 SPECIES_ZUBAT; mkMon 33 33 SPECIES_ZUBAT; mkMon 28 28 SPECIES_ZUBAT; mkMon 29 29 SPECIES_ZUBAT; mkMon 34 34 SPECIES_ZUBAT; mkMon 35 35 SPECIES_ZUBAT; mkMon 34 34 SPECIES_GOLBAT; mkMon 35 35 SPECIES_GOLBAT; mkMon 33 33 SPECIES_GOLBAT; mkMon 36 36 SPECIES_GOLBAT]))
     None
     None
     None;
   mkEnc "MAP_SEAFLOOR_CAVERN_ROOM2" "SeafloorCavern_Room2_Ruby"
     (Some (mkMons 4 [mkMon 30 30 SPECIES_ZUBAT; mkMon 31 31 SPECIES_ZUBAT; mkMon 32 32 SPECIES_ZUBAT; mkMon 33 33 SPECIES_ZUBAT; mkMon 28 28 SPECIES_ZUBAT; mkMon 29 29 SPECIES_ZUBAT; mkMon 34 34 SPECIES_ZUBAT; mkMon 35 35 SPECIES_ZUBAT; mkMon 34 34 SPECIES_GOLBAT; mkMon 35 35 SPECIES_GOLBAT; mkMon 33 33 SPECIES_GOLBAT; mkMon 36 36 SPECIES_GOLBAT]))
     None
     None
     None;
   mkEnc "MAP_SEAFLOOR_CAVERN_ROOM3" "SeafloorCavern_Room3_Ruby"
     (Some (mkMons 4 [mkMon 30 30 SPECIES_ZUBAT; mkMon 31 31 SPECIES_ZUBAT; mkMon 32 32 SPECIES_ZUBAT; mkMon 33 33 SPECIES_ZUBAT; mkMon 28 28 SPECIES_ZUBAT; mkMon 29 29 SPECIES_ZUBAT; mkMon 34 34 SPECIES_ZUBAT; mkMon 35 35 SPECIES_ZUBAT; mkMon 34 34 SPECIES_GOLBAT; mkMon 35 35 SPECIES_GOLBAT; mkMon 33 33 SPECIES_GOLBAT; mkMon 36 36 SPECIES_GOLBAT]))
     None
     None
     None;
   mkEnc "MAP_SEAFLOOR_CAVERN_ROOM4" "SeafloorCavern_Room4_Ruby"
     (Some (mkMons 4 [mkMon 30 30 SPECIES_ZUBAT; mkMon 31 31 SPECIES_ZUBAT; mkMon 32 32 SPECIES_ZUBAT; mkMon 33 33 SPECIES_ZUBAT; mkMon 28 28 SPECIES_ZUBAT; mkMon 29 29 SPECIES_ZUBAT; mkMon 34 34 SPECIES_ZUBAT; mkMon 35 35 SPECIES_ZUBAT; mkMon 34 34 SPECIES_GOLBAT; mkMon 35 35 SPECIES_GOLBAT; mkMon 33 33 SPECIES_GOLBAT; mkMon 36 36 SPECIES_GOLBAT]))
     None
     None
     None;
   mkEnc "MAP_SEAFLOOR_CAVERN_ROOM5" "SeafloorCavern_Room5_Ruby"
     (Some (mkMons 4 [mkMon 30 30 SPECIES_ZUBAT; mkMon 31 31 SPECIES_ZUBAT; mkMon 32 32 SPECIES_ZUBAT; mkMon 33 33 SPECIES_ZUBAT; mkMon 28 28 SPECIES_ZUBAT; mkMon 29 29 SPECIES_ZUBAT; mkMon 34 34 SPECIES_ZUBAT; mkMon 35 35 SPECIES_ZUBAT; mkMon 34 34 SPECIES_GOLBAT; mkMon 35 35 SPECIES_GOLBAT; mkMon 33 33 SPECIES_GOLBAT; mkMon 36 36 SPECIES_GOLBAT]))
     None
     None
     None;
   mkEnc "MAP_SEAFLOOR_CAVERN_ROOM6" "SeafloorCavern_Room6_Ruby"
     (Some (mkMons 4 [mkMon 30 30 SPECIES_ZUBAT; mkMon 31 31 SPECIES_ZUBAT; mkMon 32 32 SPECIES_ZUBAT; mkMon 33 33 SPECIES_ZUBAT; mkMon 28 28 SPECIES_ZUBAT; mkMon 29 29 SPECIES_ZUBAT; mkMon 34 34 SPECIES_ZUBAT; mkMon 35 35 SPECIES_ZUBAT; mkMon 34 34 SPECIES_GOLBAT; mkMon 35 35 SPECIES_GOLBAT; mkMon 33 33 SPECIES_GOLBAT; mkMon 36 36 SPECIES_GOLBAT]))
     (Some (mkMons 4 [mkMon 5 35 SPECIES_TENTACOOL; mkMon 5 35 SPECIES_ZUBAT; mkMon 30 35 SPECIES_ZUBAT; mkMon 30 35 SPECIES_GOLBAT; mkMon 30 35 SPECIES_GOLBAT]))
     None
     (Some (mkMons 10 [mkMon 5 10 SPECIES_MAGIKARP; mkMon 5 10 SPECIES_TENTACOOL; mkMon 10 30 SPECIES_MAGIKARP; mkMon 10 30 SPECIES_TENTACOOL; mkMon 10 30 SPECIES_WAILMER; mkMon 25 30 SPECIES_WAILMER; mkMon 30 35 SPECIES_WAILMER; mkMon 20 25 SPECIES_WAILMER; mkMon 35 40 SPECIES_WAILMER; mkMon 40 45 SPECIES_WAILMER]));
   mkEnc "MAP_SEAFLOOR_CAVERN_ROOM7" "SeafloorCavern_Room7_Ruby"
     (Some (mkMons 4 [mkMon 30 30 SPECIES_ZUBAT; mkMon 31 31 SPECIES_ZUBAT; mkMon 32 32 SPECIES_ZUBAT; mkMon 33 33 SPECIES_ZUBAT; mkMon 28 28 SPECIES_ZUBAT; mkMon 29 29 SPECIES_ZUBAT; mkMon 34 34 SPECIES_ZUBAT; mkMon 35 35 SPECIES_ZUBAT; mkMon 34 34 SPECIES_GOLBAT; mkMon 35 35 SPECIES_GOLBAT; mkMon 33 33 SPECIES_GOLBAT; mkMon 36 36 SPECIES_GOLBAT]))
     (Some (mkMons 4 [mkMon 5 35 SPECIES_TENTACOOL; mkMon 5 35 SPECIES_ZUBAT; mkMon 30 35 SPECIES_ZUBAT; mkMon 30 35 SPECIES_GOLBAT; mkMon 30 35 SPECIES_GOLBAT]))
     None
     (Some (mkMons 10 [mkMon 5 10 SPECIES_MAGIKARP; mkMon 5 10 SPECIES_TENTACOOL; mkMon 10 30 SPECIES_MAGIKARP; mkMon 10 30 SPECIES_TENTACOOL; mkMon 10 30 SPECIES_WAILMER; mkMon 25 30 SPECIES_WAILMER; mkMon 30 35 SPECIES_WAILMER; mkMon 20 25 SPECIES_WAILMER; mkMon 35 40 SPECIES_WAILMER; mkMon 40 45 SPECIES_WAILMER]));
   mkEnc "MAP_SEAFLOOR_CAVERN_ROOM8" "SeafloorCavern_Room8_Ruby"
     (Some (mkMons 4 [mkMon 30 30 SPECIES_ZUBAT; mkMon 31 31 SPECIES_ZUBAT; mkMon 32 32 SPECIES_ZUBAT; mkMon 33 33 SPECIES_ZUBAT; mkMon 28 28 SPECIES_ZUBAT; mkMon 29 29 SPECIES_ZUBAT; mkMon 34 34 SPECIES_ZUBAT; mkMon 35 35 SPECIES_ZUBAT; mkMon 34 34 SPECIES_GOLBAT; mkMon 35 35 SPECIES_GOLBAT; mkMon 33 33 SPECIES_GOLBAT; mkMon 36 36 SPECIES_GOLBAT]))
     None
     None
     None;
   mkEnc "MAP_CAVE_OF_ORIGIN_ENTRANCE" "CaveOfOrigin_Entrance_Ruby"
     (Some (mkMons 4 [mkMon 30 30 SPECIES_ZUBAT; mkMon 31 31 SPECIES_ZUBAT; mkMon 32 32 SPECIES_ZUBAT; mkMon 33 33 SPECIES_ZUBAT; mkMon 28 28 SPECIES_ZUBAT; mkMon 29 29 SPECIES_ZUBAT; mkMon 34 34 SPECIES_ZUBAT; mkMon 35 35 SPECIES_ZUBAT; mkMon 34 34 SPECIES_GOLBAT; mkMon 35 35 SPECIES_GOLBAT; mkMon 33 33 SPECIES_GOLBAT; mkMon 36 36 SPECIES_GOLBAT]))
     None
     None
     None;
   mkEnc "MAP_CAVE_OF_ORIGIN_1F" "CaveOfOrigin_1F_Ruby"
     (Some (mkMons 4 [mkMon 30 30 SPECIES_ZUBAT; mkMon 31 31 SPECIES_ZUBAT; mkMon 32 32 SPECIES_ZUBAT; mkMon 30 30 SPECIES_MAWILE; mkMon 32 32 SPECIES_MAWILE; mkMon 34 34 SPECIES_MAWILE; mkMon 33 33 SPECIES_ZUBAT; mkMon 34 34 SPECIES_ZUBAT; mkMon 34 34 SPECIES_GOLBAT; mkMon 35 35 SPECIES_GOLBAT; mkMon 33 33 SPECIES_GOLBAT; mkMon 36 36 SPECIES_GOLBAT]))
     None
     None
     None;
   mkEnc "MAP_CAVE_OF_ORIGIN_B1F" "CaveOfOrigin_B1F_Ruby"
     (Some (mkMons 4 [mkMon 30 30 SPECIES_ZUBAT; mkMon 31 31 SPECIES_ZUBAT; mkMon 32 32 SPECIES_ZUBAT; mkMon 30 30 SPECIES_MAWILE; mkMon 32 32 SPECIES_MAWILE; mkMon 34 34 SPECIES_MAWILE; mkMon 33 33 SPECIES_ZUBAT; mkMon 34 34 SPECIES_ZUBAT; mkMon 34 34 SPECIES_GOLBAT; mkMon 35 35 SPECIES_GOLBAT; mkMon 33 33 SPECIES_GOLBAT; mkMon 36 36 SPECIES_GOLBAT]))
     None
     None
     None;
   mkEnc "MAP_CAVE_OF_ORIGIN_B2F" "CaveOfOrigin_B2F_Ruby"
     (Some (mkMons 4 [mkMon 30 30 SPECIES_ZUBAT; mkMon 31 31 SPECIES_ZUBAT; mkMon 32 32 SPECIES_ZUBAT; mkMon 30 30 SPECIES_MAWILE; mkMon 32 32 SPECIES_MAWILE; mkMon 34 34 SPECIES_MAWILE; mkMon 33 33 SPECIES_ZUBAT; mkMon 34 34 SPECIES_ZUBAT; mkMon 34 34 SPECIES_GOLBAT; mkMon 35 35 SPECIES_GOLBAT; mkMon 33 33 SPECIES_GOLBAT; mkMon 36 36 SPECIES_GOLBAT]))
     None
     None
     None;
   mkEnc "MAP_CAVE_OF_ORIGIN_B3F" "CaveOfOrigin_B3F_Ruby"
     (Some (mkMons 4 [mkMon 30 30 SPECIES_ZUBAT; mkMon 31 31 SPECIES_ZUBAT; mkMon 32 32 SPECIES_ZUBAT; mkMon 30 30 SPECIES_MAWILE; mkMon 32 32 SPECIES_MAWILE; mkMon 34 34 SPECIES_MAWILE; mkMon 33 33 SPECIES_ZUBAT; mkMon 34 34 SPECIES_ZUBAT; mkMon 34 34 SPECIES_GOLBAT; mkMon 35 35 SPECIES_GOLBAT; mkMon 33 33 SPECIES_GOLBAT; mkMon 36 36 SPECIES_GOLBAT]))
     None
     None
     None;
   mkEnc "MAP_VICTORY_ROAD_1F" "VictoryRoad_1F_Ruby"
     (Some (mkMons 10 [mkMon 40 40 SPECIES_GOLBAT; mkMon 40 40 SPECIES_HARIYAMA; mkMon 40 40 SPECIES_LAIRON; mkMon 40 40 SPECIES_LOUDRED; mkMon 36 36 SPECIES_ZUBAT; mkMon 36 36 SPECIES_MAKUHITA; mkMon 38 38 SPECIES_GOLBAT; mkMon 38 38 SPECIES_HARIYAMA; mkMon 36 36 SPECIES_ARON; mkMon 36 36 SPECIES_WHISMUR; mkMon 36 36 SPECIES_ARON; mkMon 36 36 SPECIES_WHISMUR]))
     None
     None
     None;
   mkEnc "MAP_VICTORY_ROAD_B1F" "VictoryRoad_B1F_Ruby"
     (Some (mkMons 10 [mkMon 40 40 SPECIES_GOLBAT; mkMon 40 40 SPECIES_HARIYAMA; mkMon 40 40 SPECIES_LAIRON; mkMon 40 40 SPECIES_MEDICHAM; mkMon 38 38 SPECIES_GOLBAT; mkMon 38 38 SPECIES_HARIYAMA; mkMon 42 42 SPECIES_GOLBAT; mkMon 42 42 SPECIES_HARIYAMA; mkMon 42 42 SPECIES_LAIRON; mkMon 38 38 SPECIES_MEDITITE; mkMon 42 42 SPECIES_LAIRON; mkMon 38 38 SPECIES_MEDITITE]))
     None
     (Some (mkMons 20 [mkMon 30 40 SPECIES_GRAVELER; mkMon 30 40 SPECIES_GEODUDE; mkMon 35 40 SPECIES_GRAVELER; mkMon 35 40 SPECIES_GRAVELER; mkMon 35 40 SPECIES_GRAVELER]))
     None;
   mkEnc "MAP_VICTORY_ROAD_B2F" "VictoryRoad_B2F_Ruby"
     (Some (mkMons 10 [mkMon 40 40 SPECIES_GOLBAT; mkMon 40 40 SPECIES_MAWILE; mkMon 40 40 SPECIES_LAIRON; mkMon 40 40 SPECIES_MEDICHAM; mkMon 42 42 SPECIES_GOLBAT; mkMon 42 42 SPECIES_MAWILE; mkMon 44 44 SPECIES_GOLBAT; mkMon 44 44 SPECIES_MAWILE; mkMon 42 42 SPECIES_LAIRON; mkMon 42 42 SPECIES_MEDICHAM; mkMon 44 44 SPECIES_LAIRON; mkMon 44 44 SPECIES_MEDICHAM]))
     (Some (mkMons 4 [mkMon 30 35 SPECIES_GOLBAT; mkMon 25 30 SPECIES_GOLBAT; mkMon 35 40 SPECIES_GOLBAT; mkMon 35 40 SPECIES_GOLBAT; mkMon 35 40 SPECIES_GOLBAT]))
     None
     (Some (mkMons 30 [mkMon 5 10 SPECIES_MAGIKARP; mkMon 5 10 SPECIES_GOLDEEN; mkMon 10 30 SPECIES_MAGIKARP; mkMon 10 30 SPECIES_GOLDEEN; mkMon 10 30 SPECIES_BARBOACH; mkMon 25 30 SPECIES_BARBOACH; mkMon 30 35 SPECIES_BARBOACH; mkMon 30 35 SPECIES_WHISCASH; mkMon 35 40 SPECIES_WHISCASH; mkMon 40 45 SPECIES_WHISCASH]));
   mkEnc "MAP_SHOAL_CAVE_LOW_TIDE_ENTRANCE_ROOM" "ShoalCave_LowTideEntranceRoom_Ruby"
     (Some (mkMons 10 [mkMon 26 26 SPECIES_ZUBAT; mkMon 26 26 SPECIES_SPHEAL; mkMon 28 28 SPECIES_ZUBAT; mkMon 28 28 SPECIES_SPHEAL; mkMon 30 30 SPECIES_ZUBAT; mkMon 30 30 SPECIES_SPHEAL; mkMon 32 32 SPECIES_ZUBAT; mkMon 32 32 SPECIES_SPHEAL; mkMon 32 32 SPECIES_GOLBAT; mkMon 32 32 SPECIES_SPHEAL; mkMon 32 32 SPECIES_GOLBAT; mkMon 32 32 SPECIES_SPHEAL]))
     (Some (mkMons 4 [mkMon 5 35 SPECIES_TENTACOOL; mkMon 5 35 SPECIES_ZUBAT; mkMon 25 30 SPECIES_SPHEAL; mkMon 25 30 SPECIES_SPHEAL; mkMon 25 35 SPECIES_SPHEAL]))
     None
     (Some (mkMons 10 [mkMon 5 10 SPECIES_MAGIKARP; mkMon 5 10 SPECIES_TENTACOOL; mkMon 10 30 SPECIES_MAGIKARP; mkMon 10 30 SPECIES_TENTACOOL; mkMon 10 30 SPECIES_WAILMER; mkMon 25 30 SPECIES_WAILMER; mkMon 30 35 SPECIES_WAILMER; mkMon 20 25 SPECIES_WAILMER; mkMon 35 40 SPECIES_WAILMER; mkMon 40 45 SPECIES_WAILMER]));
   mkEnc "MAP_SHOAL_CAVE_LOW_TIDE_INNER_ROOM" "ShoalCave_LowTideInnerRoom_Ruby"
     (Some (mkMons 10 [mkMon 26 26 SPECIES_ZUBAT; mkMon 26 26 SPECIES_SPHEAL; mkMon 28 28 SPECIES_ZUBAT; mkMon 28 28 SPECIES_SPHEAL; mkMon 30 30 SPECIES_ZUBAT; mkMon 30 30 SPECIES_SPHEAL; mkMon 32 32 SPECIES_ZUBAT; mkMon 32 32 SPECIES_SPHEAL; mkMon 32 32 SPECIES_GOLBAT; mkMon 32 32 SPECIES_SPHEAL; mkMon 32 32 SPECIES_GOLBAT; mkMon 32 32 SPECIES_SPHEAL]))
     (Some (mkMons 4 [mkMon 5 35 SPECIES_TENTACOOL; mkMon 5 35 SPECIES_ZUBAT; mkMon 25 30 SPECIES_SPHEAL; mkMon 25 30 SPECIES_SPHEAL; mkMon 25 35 SPECIES_SPHEAL]))
     None
     (Some (mkMons 10 [mkMon 5 10 SPECIES_MAGIKARP; mkMon 5 10 SPECIES_TENTACOOL; mkMon 10 30 SPECIES_MAGIKARP; mkMon 10 30 SPECIES_TENTACOOL; mkMon 10 30 SPECIES_WAILMER; mkMon 25 30 SPECIES_WAILMER; mkMon 30 35 SPECIES_WAILMER; mkMon 20 25 SPECIES_WAILMER; mkMon 35 40 SPECIES_WAILMER; mkMon 40 45 SPECIES_WAILMER]));
   mkEnc "MAP_SHOAL_CAVE_LOW_TIDE_STAIRS_ROOM" "ShoalCave_LowTideStairsRoom_Ruby"
     (Some (mkMons 10 [mkMon 26 26 SPECIES_ZUBAT; mkMon 26 26 SPECIES_SPHEAL; mkMon 28 28 SPECIES_ZUBAT; mkMon 28 28 SPECIES_SPHEAL; mkMon 30 30 SPECIES_ZUBAT; mkMon 30 30 SPECIES_SPHEAL; mkMon 32 32 SPECIES_ZUBAT; mkMon 32 32 SPECIES_SPHEAL; mkMon 32 32 SPECIES_GOLBAT; mkMon 32 32 SPECIES_SPHEAL; mkMon 32 32 SPECIES_GOLBAT; mkMon 32 32 SPECIES_SPHEAL]))
     None
     None
     None;
   mkEnc "MAP_SHOAL_CAVE_LOW_TIDE_LOWER_ROOM" "ShoalCave_LowTideLowerRoom_Ruby"
     (Some (mkMons 10 [mkMon 26 26 SPECIES_ZUBAT; mkMon 26 26 SPECIES_SPHEAL; mkMon 28 28 SPECIES_ZUBAT; mkMon 28 28 SPECIES_SPHEAL; mkMon 30 30 SPECIES_ZUBAT; mkMon 30 30 SPECIES_SPHEAL; mkMon 32 32 SPECIES_ZUBAT; mkMon 32 32 SPECIES_SPHEAL; mkMon 32 32 SPECIES_GOLBAT; mkMon 32 32 SPECIES_SPHEAL; mkMon 32 32 SPECIES_GOLBAT; mkMon 32 32 SPECIES_SPHEAL]))
     None
     None
     None;
   mkEnc "MAP_SHOAL_CAVE_LOW_TIDE_ICE_ROOM" "ShoalCave_LowTideIceRoom_Ruby"
     (Some (mkMons 10 [mkMon 26 26 SPECIES_ZUBAT; mkMon 26 26 SPECIES_SPHEAL; mkMon 28 28 SPECIES_ZUBAT; mkMon 28 28 SPECIES_SPHEAL; mkMon 30 30 SPECIES_ZUBAT; mkMon 30 30 SPECIES_SPHEAL; mkMon 26 26 SPECIES_SNORUNT; mkMon 32 32 SPECIES_SPHEAL; mkMon 30 30 SPECIES_GOLBAT; mkMon 28 28 SPECIES_SNORUNT; mkMon 32 32 SPECIES_GOLBAT; mkMon 30 30 SPECIES_SNORUNT]))
     None
     None
     None;
   mkEnc "MAP_NEW_MAUVILLE_ENTRANCE" "NewMauville_Entrance_Ruby"
     (Some (mkMons 10 [mkMon 24 24 SPECIES_VOLTORB; mkMon 24 24 SPECIES_MAGNEMITE; mkMon 25 25 SPECIES_VOLTORB; mkMon 25 25 SPECIES_MAGNEMITE; mkMon 23 23 SPECIES_VOLTORB; mkMon 23 23 SPECIES_MAGNEMITE; mkMon 26 26 SPECIES_VOLTORB; mkMon 26 26 SPECIES_MAGNEMITE; mkMon 22 22 SPECIES_VOLTORB; mkMon 22 22 SPECIES_MAGNEMITE; mkMon 22 22 SPECIES_VOLTORB; mkMon 22 22 SPECIES_MAGNEMITE]))
     None
     None
     None;
   mkEnc "MAP_NEW_MAUVILLE_INSIDE" "NewMauville_Inside_Ruby"
     (Some (mkMons 10 [mkMon 24 24 SPECIES_VOLTORB; mkMon 24 24 SPECIES_MAGNEMITE; mkMon 25 25 SPECIES_VOLTORB; mkMon 25 25 SPECIES_MAGNEMITE; mkMon 23 23 SPECIES_VOLTORB; mkMon 23 23 SPECIES_MAGNEMITE; mkMon 26 26 SPECIES_VOLTORB; mkMon 26 26 SPECIES_MAGNEMITE; mkMon 22 22 SPECIES_VOLTORB; mkMon 22 22 SPECIES_MAGNEMITE; mkMon 26 26 SPECIES_ELECTRODE; mkMon 26 26 SPECIES_MAGNETON]))
     None
     None
     None;
   mkEnc "MAP_ABANDONED_SHIP_ROOMS_B1F" "AbandonedShip_Rooms_B1F_Ruby"
     None
     (Some (mkMons 4 [mkMon 5 35 SPECIES_TENTACOOL; mkMon 5 35 SPECIES_TENTACOOL; mkMon 5 35 SPECIES_TENTACOOL; mkMon 5 35 SPECIES_TENTACOOL; mkMon 30 35 SPECIES_TENTACRUEL]))
     None
     (Some (mkMons 20 [mkMon 5 10 SPECIES_MAGIKARP; mkMon 5 10 SPECIES_TENTACOOL; mkMon 10 30 SPECIES_MAGIKARP; mkMon 10 30 SPECIES_TENTACOOL; mkMon 10 30 SPECIES_TENTACOOL; mkMon 25 30 SPECIES_TENTACOOL; mkMon 30 35 SPECIES_TENTACOOL; mkMon 30 35 SPECIES_TENTACRUEL; mkMon 25 30 SPECIES_TENTACRUEL; mkMon 20 25 SPECIES_TENTACRUEL]));
   mkEnc "MAP_ABANDONED_SHIP_HIDDEN_FLOOR_CORRIDORS" "AbandonedShip_HiddenFloorCorridors_Ruby"
     None
     (Some (mkMons 4 [mkMon 5 35 SPECIES_TENTACOOL; mkMon 5 35 SPECIES_TENTACOOL; mkMon 5 35 SPECIES_TENTACOOL; mkMon 5 35 SPECIES_TENTACOOL; mkMon 30 35 SPECIES_TENTACRUEL]))
     None
     (Some (mkMons 20 [mkMon 5 10 SPECIES_MAGIKARP; mkMon 5 10 SPECIES_TENTACOOL; mkMon 10 30 SPECIES_MAGIKARP; mkMon 10 30 SPECIES_TENTACOOL; mkMon 10 30 SPECIES_TENTACOOL; mkMon 25 30 SPECIES_TENTACOOL; mkMon 30 35 SPECIES_TENTACOOL; mkMon 30 35 SPECIES_TENTACRUEL; mkMon 25 30 SPECIES_TENTACRUEL; mkMon 20 25 SPECIES_TENTACRUEL]));
   mkEnc "MAP_SKY_PILLAR_1F" "SkyPillar_1F_Ruby"
     (Some (mkMons 10 [mkMon 48 48 SPECIES_MAWILE; mkMon 48 48 SPECIES_GOLBAT; mkMon 50 50 SPECIES_GOLBAT; mkMon 50 50 SPECIES_MAWILE; mkMon 48 48 SPECIES_CLAYDOL; mkMon 48 48 SPECIES_DUSCLOPS; mkMon 50 50 SPECIES_DUSCLOPS; mkMon 49 49 SPECIES_CLAYDOL; mkMon 47 47 SPECIES_CLAYDOL; mkMon 50 50 SPECIES_CLAYDOL; mkMon 47 47 SPECIES_CLAYDOL; mkMon 50 50 SPECIES_CLAYDOL]))
     None
     None
     None;
   mkEnc "MAP_SKY_PILLAR_3F" "SkyPillar_3F_Ruby"
     (Some (mkMons 10 [mkMon 51 51 SPECIES_MAWILE; mkMon 51 51 SPECIES_GOLBAT; mkMon 53 53 SPECIES_GOLBAT; mkMon 53 53 SPECIES_MAWILE; mkMon 51 51 SPECIES_CLAYDOL; mkMon 51 51 SPECIES_DUSCLOPS; mkMon 53 53 SPECIES_DUSCLOPS; mkMon 52 52 SPECIES_CLAYDOL; mkMon 50 50 SPECIES_CLAYDOL; mkMon 53 53 SPECIES_CLAYDOL; mkMon 50 50 SPECIES_CLAYDOL; mkMon 53 53 SPECIES_CLAYDOL]))
     None
     None
     None;
   mkEnc "MAP_SKY_PILLAR_5F" "SkyPillar_5F_Ruby"
     (Some (mkMons 10 [mkMon 54 54 SPECIES_MAWILE; mkMon 54 54 SPECIES_GOLBAT; mkMon 56 56 SPECIES_GOLBAT; mkMon 56 56 SPECIES_MAWILE; mkMon 54 54 SPECIES_CLAYDOL; mkMon 54 54 SPECIES_DUSCLOPS; mkMon 56 56 SPECIES_DUSCLOPS; mkMon 55 55 SPECIES_CLAYDOL; mkMon 56 56 SPECIES_CLAYDOL; mkMon 57 57 SPECIES_ALTARIA; mkMon 54 54 SPECIES_ALTARIA; mkMon 60 60 SPECIES_ALTARIA]))
     None
     None
     None;
   mkEnc "MAP_ROUTE101" "Route101_Ruby"
     (Some (mkMons 20 [mkMon 2 2 SPECIES_WURMPLE; mkMon 2 2 SPECIES_ZIGZAGOON; mkMon 2 2 SPECIES_WURMPLE; mkMon 3 3 SPECIES_WURMPLE; mkMon 3 3 SPECIES_ZIGZAGOON; mkMon 3 3 SPECIES_ZIGZAGOON; mkMon 3 3 SPECIES_WURMPLE; mkMon 3 3 SPECIES_ZIGZAGOON; mkMon 2 2 SPECIES_POOCHYENA; mkMon 2 2 SPECIES_POOCHYENA; mkMon 3 3 SPECIES_POOCHYENA; mkMon 3 3 SPECIES_POOCHYENA]))
     None
     None
     None;
   mkEnc "MAP_ROUTE102" "Route102_Ruby"
     (Some (mkMons 20 [mkMon 3 3 SPECIES_ZIGZAGOON; mkMon 3 3 SPECIES_WURMPLE; mkMon 4 4 SPECIES_ZIGZAGOON; mkMon 4 4 SPECIES_WURMPLE; mkMon 3 3 SPECIES_SEEDOT; mkMon 4 4 SPECIES_SEEDOT; mkMon 3 3 SPECIES_POOCHYENA; mkMon 3 3 SPECIES_POOCHYENA; mkMon 4 4 SPECIES_POOCHYENA; mkMon 4 4 SPECIES_RALTS; mkMon 4 4 SPECIES_POOCHYENA; mkMon 3 3 SPECIES_SURSKIT]))
     (Some (mkMons 4 [mkMon 20 30 SPECIES_MARILL; mkMon 10 20 SPECIES_MARILL; mkMon 30 35 SPECIES_MARILL; mkMon 5 10 SPECIES_MARILL; mkMon 20 30 SPECIES_SURSKIT]))
     None
     (Some (mkMons 30 [mkMon 5 10 SPECIES_MAGIKARP; mkMon 5 10 SPECIES_GOLDEEN; mkMon 10 30 SPECIES_MAGIKARP; mkMon 10 30 SPECIES_GOLDEEN; mkMon 10 30 SPECIES_CORPHISH; mkMon 25 30 SPECIES_CORPHISH; mkMon 30 35 SPECIES_CORPHISH; mkMon 20 25 SPECIES_CORPHISH; mkMon 35 40 SPECIES_CORPHISH; mkMon 40 45 SPECIES_CORPHISH]));
   mkEnc "MAP_ROUTE103" "Route103_Ruby"
     (Some (mkMons 20 [mkMon 2 2 SPECIES_ZIGZAGOON; mkMon 3 3 SPECIES_ZIGZAGOON; mkMon 3 3 SPECIES_ZIGZAGOON; mkMon 4 4 SPECIES_ZIGZAGOON; mkMon 2 2 SPECIES_POOCHYENA; mkMon 3 3 SPECIES_POOCHYENA; mkMon 3 3 SPECIES_POOCHYENA; mkMon 4 4 SPECIES_POOCHYENA; mkMon 3 3 SPECIES_WINGULL; mkMon 3 3 SPECIES_WINGULL; mkMon 2 2 SPECIES_WINGULL; mkMon 4 4 SPECIES_WINGULL]))
     (Some (mkMons 4 [mkMon 5 35 SPECIES_TENTACOOL; mkMon 10 30 SPECIES_WINGULL; mkMon 15 25 SPECIES_WINGULL; mkMon 25 30 SPECIES_PELIPPER; mkMon 25 30 SPECIES_PELIPPER]))
     None
     (Some (mkMons 30 [mkMon 5 10 SPECIES_MAGIKARP; mkMon 5 10 SPECIES_TENTACOOL; mkMon 10 30 SPECIES_MAGIKARP; mkMon 10 30 SPECIES_TENTACOOL; mkMon 10 30 SPECIES_WAILMER; mkMon 30 35 SPECIES_SHARPEDO; mkMon 30 35 SPECIES_WAILMER; mkMon 25 30 SPECIES_WAILMER; mkMon 35 40 SPECIES_WAILMER; mkMon 40 45 SPECIES_WAILMER]));
   mkEnc "MAP_ROUTE104" "Route104_Ruby"
     (Some (mkMons 20 [mkMon 4 4 SPECIES_ZIGZAGOON; mkMon 4 4 SPECIES_WURMPLE; mkMon 5 5 SPECIES_ZIGZAGOON; mkMon 5 5 SPECIES_WURMPLE; mkMon 4 4 SPECIES_ZIGZAGOON; mkMon 5 5 SPECIES_ZIGZAGOON; mkMon 4 4 SPECIES_TAILLOW; mkMon 5 5 SPECIES_TAILLOW; mkMon 4 4 SPECIES_WINGULL; mkMon 4 4 SPECIES_WINGULL; mkMon 3 3 SPECIES_WINGULL; mkMon 5 5 SPECIES_WINGULL]))
     (Some (mkMons 4 [mkMon 10 30 SPECIES_WINGULL; mkMon 15 25 SPECIES_WINGULL; mkMon 15 25 SPECIES_WINGULL; mkMon 25 30 SPECIES_PELIPPER; mkMon 25 30 SPECIES_PELIPPER]))
     None
     (Some (mkMons 30 [mkMon 5 10 SPECIES_MAGIKARP; mkMon 5 10 SPECIES_MAGIKARP; mkMon 10 30 SPECIES_MAGIKARP; mkMon 10 30 SPECIES_MAGIKARP; mkMon 10 30 SPECIES_MAGIKARP; mkMon 25 30 SPECIES_MAGIKARP; mkMon 30 35 SPECIES_MAGIKARP; mkMon 20 25 SPECIES_MAGIKARP; mkMon 35 40 SPECIES_MAGIKARP; mkMon 40 45 SPECIES_MAGIKARP]));
   mkEnc "MAP_ROUTE105" "Route105_Ruby"
     None
     (Some (mkMons 4 [mkMon 5 35 SPECIES_TENTACOOL; mkMon 10 30 SPECIES_WINGULL; mkMon 15 25 SPECIES_WINGULL; mkMon 25 30 SPECIES_PELIPPER; mkMon 25 30 SPECIES_PELIPPER]))
     None
     (Some (mkMons 30 [mkMon 5 10 SPECIES_MAGIKARP; mkMon 5 10 SPECIES_TENTACOOL; mkMon 10 30 SPECIES_MAGIKARP; mkMon 10 30 SPECIES_TENTACOOL; mkMon 10 30 SPECIES_WAILMER; mkMon 25 30 SPECIES_WAILMER; mkMon 30 35 SPECIES_WAILMER; mkMon 20 25 SPECIES_WAILMER; mkMon 35 40 SPECIES_WAILMER; mkMon 40 45 SPECIES_WAILMER]));
   mkEnc "MAP_ROUTE106" "Route106_Ruby"
     None
     (Some (mkMons 4 [mkMon 5 35 SPECIES_TENTACOOL; mkMon 10 30 SPECIES_WINGULL; mkMon 15 25 SPECIES_WINGULL; mkMon 25 30 SPECIES_PELIPPER; mkMon 25 30 SPECIES_PELIPPER]))
     None
     (Some (mkMons 30 [mkMon 5 10 SPECIES_MAGIKARP; mkMon 5 10 SPECIES_TENTACOOL; mkMon 10 30 SPECIES_MAGIKARP; mkMon 10 30 SPECIES_TENTACOOL; mkMon 10 30 SPECIES_WAILMER; mkMon 25 30 SPECIES_WAILMER; mkMon 30 35 SPECIES_WAILMER; mkMon 20 25 SPECIES_WAILMER; mkMon 35 40 SPECIES_WAILMER; mkMon 40 45 SPECIES_WAILMER]));
   mkEnc "MAP_ROUTE107" "Route107_Ruby"
     None
     (Some (mkMons 4 [mkMon 5 35 SPECIES_TENTACOOL; mkMon 10 30 SPECIES_WINGULL; mkMon 15 25 SPECIES_WINGULL; mkMon 25 30 SPECIES_PELIPPER; mkMon 25 30 SPECIES_PELIPPER]))
     None
     (Some (mkMons 30 [mkMon 5 10 SPECIES_MAGIKARP; mkMon 5 10 SPECIES_TENTACOOL; mkMon 10 30 SPECIES_MAGIKARP; mkMon 10 30 SPECIES_TENTACOOL; mkMon 10 30 SPECIES_WAILMER; mkMon 25 30 SPECIES_WAILMER; mkMon 30 35 SPECIES_WAILMER; mkMon 20 25 SPECIES_WAILMER; mkMon 35 40 SPECIES_WAILMER; mkMon 40 45 SPECIES_WAILMER]));
   mkEnc "MAP_ROUTE108" "Route108_Ruby"
     None
     (Some (mkMons 4 [mkMon 5 35 SPECIES_TENTACOOL; mkMon 10 30 SPECIES_WINGULL; mkMon 15 25 SPECIES_WINGULL; mkMon 25 30 SPECIES_PELIPPER; mkMon 25 30 SPECIES_PELIPPER]))
     None
     (Some (mkMons 30 [mkMon 5 10 SPECIES_MAGIKARP; mkMon 5 10 SPECIES_TENTACOOL; mkMon 10 30 SPECIES_MAGIKARP; mkMon 10 30 SPECIES_TENTACOOL; mkMon 10 30 SPECIES_WAILMER; mkMon 25 30 SPECIES_WAILMER; mkMon 30 35 SPECIES_WAILMER; mkMon 20 25 SPECIES_WAILMER; mkMon 35 40 SPECIES_WAILMER; mkMon 40 45 SPECIES_WAILMER]));
   mkEnc "MAP_ROUTE109" "Route109_Ruby"
     None
     (Some (mkMons 4 [mkMon 5 35 SPECIES_TENTACOOL; mkMon 10 30 SPECIES_WINGULL; mkMon 15 25 SPECIES_WINGULL; mkMon 25 30 SPECIES_PELIPPER; mkMon 25 30 SPECIES_PELIPPER]))
     None
     (Some (mkMons 30 [mkMon 5 10 SPECIES_MAGIKARP; mkMon 5 10 SPECIES_TENTACOOL; mkMon 10 30 SPECIES_MAGIKARP; mkMon 10 30 SPECIES_TENTACOOL; mkMon 10 30 SPECIES_WAILMER; mkMon 25 30 SPECIES_WAILMER; mkMon 30 35 SPECIES_WAILMER; mkMon 20 25 SPECIES_WAILMER; mkMon 35 40 SPECIES_WAILMER; mkMon 40 45 SPECIES_WAILMER]));
   mkEnc "MAP_ROUTE110" "Route110_Ruby"
     (Some (mkMons 20 [mkMon 12 12 SPECIES_ZIGZAGOON; mkMon 12 12 SPECIES_ELECTRIKE; mkMon 12 12 SPECIES_GULPIN; mkMon 13 13 SPECIES_ELECTRIKE; mkMon 13 13 SPECIES_MINUN; mkMon 13 13 SPECIES_ODDISH; mkMon 13 13 SPECIES_MINUN; mkMon 13 13 SPECIES_GULPIN; mkMon 12 12 SPECIES_WINGULL; mkMon 12 12 SPECIES_WINGULL; mkMon 12 12 SPECIES_PLUSLE; mkMon 13 13 SPECIES_PLUSLE]))
     (Some (mkMons 4 [mkMon 5 35 SPECIES_TENTACOOL; mkMon 10 30 SPECIES_WINGULL; mkMon 15 25 SPECIES_WINGULL; mkMon 25 30 SPECIES_PELIPPER; mkMon 25 30 SPECIES_PELIPPER]))
     None
     (Some (mkMons 30 [mkMon 5 10 SPECIES_MAGIKARP; mkMon 5 10 SPECIES_TENTACOOL; mkMon 10 30 SPECIES_MAGIKARP; mkMon 10 30 SPECIES_TENTACOOL; mkMon 10 30 SPECIES_WAILMER; mkMon 25 30 SPECIES_WAILMER; mkMon 30 35 SPECIES_WAILMER; mkMon 20 25 SPECIES_WAILMER; mkMon 35 40 SPECIES_WAILMER; mkMon 40 45 SPECIES_WAILMER]));
   mkEnc "MAP_ROUTE111" "Route111_Ruby"
     (Some (mkMons 10 [mkMon 20 20 SPECIES_SANDSHREW; mkMon 20 20 SPECIES_TRAPINCH; mkMon 21 21 SPECIES_SANDSHREW; mkMon 21 21 SPECIES_TRAPINCH; mkMon 19 19 SPECIES_CACNEA; mkMon 21 21 SPECIES_CACNEA; mkMon 19 19 SPECIES_SANDSHREW; mkMon 19 19 SPECIES_TRAPINCH; mkMon 20 20 SPECIES_BALTOY; mkMon 20 20 SPECIES_BALTOY; mkMon 22 22 SPECIES_BALTOY; mkMon 22 22 SPECIES_BALTOY]))
     (Some (mkMons 4 [mkMon 20 30 SPECIES_MARILL; mkMon 10 20 SPECIES_MARILL; mkMon 30 35 SPECIES_MARILL; mkMon 5 10 SPECIES_MARILL; mkMon 20 30 SPECIES_SURSKIT]))
     (Some (mkMons 20 [mkMon 10 15 SPECIES_GEODUDE; mkMon 5 10 SPECIES_GEODUDE; mkMon 15 20 SPECIES_GEODUDE; mkMon 15 20 SPECIES_GEODUDE; mkMon 15 20 SPECIES_GEODUDE]))
     (Some (mkMons 30 [mkMon 5 10 SPECIES_MAGIKARP; mkMon 5 10 SPECIES_GOLDEEN; mkMon 10 30 SPECIES_MAGIKARP; mkMon 10 30 SPECIES_GOLDEEN; mkMon 10 30 SPECIES_BARBOACH; mkMon 25 30 SPECIES_BARBOACH; mkMon 30 35 SPECIES_BARBOACH; mkMon 20 25 SPECIES_BARBOACH; mkMon 35 40 SPECIES_BARBOACH; mkMon 40 45 SPECIES_BARBOACH]));
   mkEnc "MAP_ROUTE112" "Route112_Ruby"
     (Some (mkMons 20 [mkMon 15 15 SPECIES_NUMEL; mkMon 15 15 SPECIES_NUMEL; mkMon 15 15 SPECIES_MACHOP; mkMon 14 14 SPECIES_NUMEL; mkMon 14 14 SPECIES_NUMEL; mkMon 14 14 SPECIES_MACHOP; mkMon 16 16 SPECIES_NUMEL; mkMon 16 16 SPECIES_MACHOP; mkMon 16 16 SPECIES_NUMEL; mkMon 16 16 SPECIES_NUMEL; mkMon 16 16 SPECIES_NUMEL; mkMon 16 16 SPECIES_NUMEL]))
     None
     None
     None;
   mkEnc "MAP_ROUTE113" "Route113_Ruby"
     (Some (mkMons 20 [mkMon 15 15 SPECIES_SPINDA; mkMon 15 15 SPECIES_SPINDA; mkMon 15 15 SPECIES_SANDSHREW; mkMon 14 14 SPECIES_SPINDA; mkMon 14 14 SPECIES_SPINDA; mkMon 14 14 SPECIES_SANDSHREW; mkMon 16 16 SPECIES_SPINDA; mkMon 16 16 SPECIES_SANDSHREW; mkMon 16 16 SPECIES_SPINDA; mkMon 16 16 SPECIES_SKARMORY; mkMon 16 16 SPECIES_SPINDA; mkMon 16 16 SPECIES_SKARMORY]))
     None
     None
     None;
   mkEnc "MAP_ROUTE114" "Route114_Ruby"
     (Some (mkMons 20 [mkMon 16 16 SPECIES_SWABLU; mkMon 16 16 SPECIES_SEEDOT; mkMon 17 17 SPECIES_SWABLU; mkMon 15 15 SPECIES_SWABLU; mkMon 15 15 SPECIES_SEEDOT; mkMon 16 16 SPECIES_ZANGOOSE; mkMon 16 16 SPECIES_NUZLEAF; mkMon 18 18 SPECIES_NUZLEAF; mkMon 17 17 SPECIES_ZANGOOSE; mkMon 15 15 SPECIES_ZANGOOSE; mkMon 17 17 SPECIES_ZANGOOSE; mkMon 15 15 SPECIES_SURSKIT]))
     (Some (mkMons 4 [mkMon 20 30 SPECIES_MARILL; mkMon 10 20 SPECIES_MARILL; mkMon 30 35 SPECIES_MARILL; mkMon 5 10 SPECIES_MARILL; mkMon 20 30 SPECIES_SURSKIT]))
     (Some (mkMons 20 [mkMon 10 15 SPECIES_GEODUDE; mkMon 5 10 SPECIES_GEODUDE; mkMon 15 20 SPECIES_GEODUDE; mkMon 15 20 SPECIES_GEODUDE; mkMon 15 20 SPECIES_GEODUDE]))
     (Some (mkMons 30 [mkMon 5 10 SPECIES_MAGIKARP; mkMon 5 10 SPECIES_GOLDEEN; mkMon 10 30 SPECIES_MAGIKARP; mkMon 10 30 SPECIES_GOLDEEN; mkMon 10 30 SPECIES_BARBOACH; mkMon 25 30 SPECIES_BARBOACH; mkMon 30 35 SPECIES_BARBOACH; mkMon 20 25 SPECIES_BARBOACH; mkMon 35 40 SPECIES_BARBOACH; mkMon 40 45 SPECIES_BARBOACH]));
   mkEnc "MAP_ROUTE115" "Route115_Ruby"
     (Some (mkMons 20 [mkMon 23 23 SPECIES_SWABLU; mkMon 23 23 SPECIES_TAILLOW; mkMon 25 25 SPECIES_SWABLU; mkMon 24 24 SPECIES_TAILLOW; mkMon 25 25 SPECIES_TAILLOW; mkMon 25 25 SPECIES_SWELLOW; mkMon 24 24 SPECIES_JIGGLYPUFF; mkMon 25 25 SPECIES_JIGGLYPUFF; mkMon 24 24 SPECIES_WINGULL; mkMon 24 24 SPECIES_WINGULL; mkMon 26 26 SPECIES_WINGULL; mkMon 25 25 SPECIES_WINGULL]))
     (Some (mkMons 4 [mkMon 5 35 SPECIES_TENTACOOL; mkMon 10 30 SPECIES_WINGULL; mkMon 15 25 SPECIES_WINGULL; mkMon 25 30 SPECIES_PELIPPER; mkMon 25 30 SPECIES_PELIPPER]))
     None
     (Some (mkMons 30 [mkMon 5 10 SPECIES_MAGIKARP; mkMon 5 10 SPECIES_TENTACOOL; mkMon 10 30 SPECIES_MAGIKARP; mkMon 10 30 SPECIES_TENTACOOL; mkMon 10 30 SPECIES_WAILMER; mkMon 25 30 SPECIES_WAILMER; mkMon 30 35 SPECIES_WAILMER; mkMon 20 25 SPECIES_WAILMER; mkMon 35 40 SPECIES_WAILMER; mkMon 40 45 SPECIES_WAILMER]));
   mkEnc "MAP_ROUTE116" "Route116_Ruby"
     (Some (mkMons 20 [mkMon 6 6 SPECIES_ZIGZAGOON; mkMon 6 6 SPECIES_WHISMUR; mkMon 6 6 SPECIES_NINCADA; mkMon 7 7 SPECIES_WHISMUR; mkMon 7 7 SPECIES_NINCADA; mkMon 6 6 SPECIES_TAILLOW; mkMon 7 7 SPECIES_TAILLOW; mkMon 8 8 SPECIES_TAILLOW; mkMon 7 7 SPECIES_ZIGZAGOON; mkMon 8 8 SPECIES_ZIGZAGOON; mkMon 7 7 SPECIES_SKITTY; mkMon 8 8 SPECIES_SKITTY]))
     None
     None
     None;
   mkEnc "MAP_ROUTE117" "Route117_Ruby"
     (Some (mkMons 20 [mkMon 13 13 SPECIES_ZIGZAGOON; mkMon 13 13 SPECIES_ROSELIA; mkMon 14 14 SPECIES_ZIGZAGOON; mkMon 14 14 SPECIES_ROSELIA; mkMon 13 13 SPECIES_MARILL; mkMon 13 13 SPECIES_ODDISH; mkMon 13 13 SPECIES_ILLUMISE; mkMon 13 13 SPECIES_ILLUMISE; mkMon 14 14 SPECIES_ILLUMISE; mkMon 14 14 SPECIES_ILLUMISE; mkMon 13 13 SPECIES_VOLBEAT; mkMon 13 13 SPECIES_SURSKIT]))
     (Some (mkMons 4 [mkMon 20 30 SPECIES_MARILL; mkMon 10 20 SPECIES_MARILL; mkMon 30 35 SPECIES_MARILL; mkMon 5 10 SPECIES_MARILL; mkMon 20 30 SPECIES_SURSKIT]))
     None
     (Some (mkMons 30 [mkMon 5 10 SPECIES_MAGIKARP; mkMon 5 10 SPECIES_GOLDEEN; mkMon 10 30 SPECIES_MAGIKARP; mkMon 10 30 SPECIES_GOLDEEN; mkMon 10 30 SPECIES_CORPHISH; mkMon 25 30 SPECIES_CORPHISH; mkMon 30 35 SPECIES_CORPHISH; mkMon 20 25 SPECIES_CORPHISH; mkMon 35 40 SPECIES_CORPHISH; mkMon 40 45 SPECIES_CORPHISH]));
   mkEnc "MAP_ROUTE118" "Route118_Ruby"
     (Some (mkMons 20 [mkMon 24 24 SPECIES_ZIGZAGOON; mkMon 24 24 SPECIES_ELECTRIKE; mkMon 26 26 SPECIES_ZIGZAGOON; mkMon 26 26 SPECIES_ELECTRIKE; mkMon 26 26 SPECIES_LINOONE; mkMon 26 26 SPECIES_MANECTRIC; mkMon 25 25 SPECIES_WINGULL; mkMon 25 25 SPECIES_WINGULL; mkMon 26 26 SPECIES_WINGULL; mkMon 26 26 SPECIES_WINGULL; mkMon 27 27 SPECIES_WINGULL; mkMon 25 25 SPECIES_KECLEON]))
     (Some (mkMons 4 [mkMon 5 35 SPECIES_TENTACOOL; mkMon 10 30 SPECIES_WINGULL; mkMon 15 25 SPECIES_WINGULL; mkMon 25 30 SPECIES_PELIPPER; mkMon 25 30 SPECIES_PELIPPER]))
     None
     (Some (mkMons 30 [mkMon 5 10 SPECIES_MAGIKARP; mkMon 5 10 SPECIES_TENTACOOL; mkMon 10 30 SPECIES_MAGIKARP; mkMon 10 30 SPECIES_TENTACOOL; mkMon 10 30 SPECIES_CARVANHA; mkMon 30 35 SPECIES_SHARPEDO; mkMon 30 35 SPECIES_CARVANHA; mkMon 20 25 SPECIES_CARVANHA; mkMon 35 40 SPECIES_CARVANHA; mkMon 40 45 SPECIES_CARVANHA]));
   mkEnc "MAP_ROUTE119" "Route119_Ruby"
     (Some (mkMons 15 [mkMon 25 25 SPECIES_ZIGZAGOON; mkMon 25 25 SPECIES_LINOONE; mkMon 27 27 SPECIES_ZIGZAGOON; mkMon 25 25 SPECIES_ODDISH; mkMon 27 27 SPECIES_LINOONE; mkMon 26 26 SPECIES_ODDISH; mkMon 27 27 SPECIES_ODDISH; mkMon 24 24 SPECIES_ODDISH; mkMon 25 25 SPECIES_TROPIUS; mkMon 26 26 SPECIES_TROPIUS; mkMon 27 27 SPECIES_TROPIUS; mkMon 25 25 SPECIES_KECLEON]))
     (Some (mkMons 4 [mkMon 5 35 SPECIES_TENTACOOL; mkMon 10 30 SPECIES_WINGULL; mkMon 15 25 SPECIES_WINGULL; mkMon 25 30 SPECIES_PELIPPER; mkMon 25 30 SPECIES_PELIPPER]))
     None
     (Some (mkMons 30 [mkMon 5 10 SPECIES_MAGIKARP; mkMon 5 10 SPECIES_TENTACOOL; mkMon 10 30 SPECIES_MAGIKARP; mkMon 10 30 SPECIES_TENTACOOL; mkMon 10 30 SPECIES_CARVANHA; mkMon 25 30 SPECIES_CARVANHA; mkMon 30 35 SPECIES_CARVANHA; mkMon 20 25 SPECIES_CARVANHA; mkMon 35 40 SPECIES_CARVANHA; mkMon 40 45 SPECIES_CARVANHA]));
   mkEnc "MAP_ROUTE120" "Route120_Ruby"
     (Some (mkMons 20 [mkMon 25 25 SPECIES_ZIGZAGOON; mkMon 25 25 SPECIES_LINOONE; mkMon 27 27 SPECIES_LINOONE; mkMon 25 25 SPECIES_ODDISH; mkMon 25 25 SPECIES_MARILL; mkMon 26 26 SPECIES_ODDISH; mkMon 27 27 SPECIES_ODDISH; mkMon 27 27 SPECIES_MARILL; mkMon 25 25 SPECIES_ABSOL; mkMon 27 27 SPECIES_ABSOL; mkMon 25 25 SPECIES_KECLEON; mkMon 25 25 SPECIES_SURSKIT]))
     (Some (mkMons 4 [mkMon 20 30 SPECIES_MARILL; mkMon 10 20 SPECIES_MARILL; mkMon 30 35 SPECIES_MARILL; mkMon 5 10 SPECIES_MARILL; mkMon 20 30 SPECIES_SURSKIT]))
     None
     (Some (mkMons 30 [mkMon 5 10 SPECIES_MAGIKARP; mkMon 5 10 SPECIES_GOLDEEN; mkMon 10 30 SPECIES_MAGIKARP; mkMon 10 30 SPECIES_GOLDEEN; mkMon 10 30 SPECIES_BARBOACH; mkMon 25 30 SPECIES_BARBOACH; mkMon 30 35 SPECIES_BARBOACH; mkMon 20 25 SPECIES_BARBOACH; mkMon 35 40 SPECIES_BARBOACH; mkMon 40 45 SPECIES_BARBOACH]));
   mkEnc "MAP_ROUTE121" "Route121_Ruby"
     (Some (mkMons 20 [mkMon 26 26 SPECIES_ZIGZAGOON; mkMon 26 26 SPECIES_DUSKULL; mkMon 26 26 SPECIES_LINOONE; mkMon 28 28 SPECIES_DUSKULL; mkMon 28 28 SPECIES_LINOONE; mkMon 26 26 SPECIES_ODDISH; mkMon 28 28 SPECIES_ODDISH; mkMon 28 28 SPECIES_GLOOM; mkMon 26 26 SPECIES_WINGULL; mkMon 27 27 SPECIES_WINGULL; mkMon 28 28 SPECIES_WINGULL; mkMon 25 25 SPECIES_KECLEON]))
     (Some (mkMons 4 [mkMon 5 35 SPECIES_TENTACOOL; mkMon 10 30 SPECIES_WINGULL; mkMon 15 25 SPECIES_WINGULL; mkMon 25 30 SPECIES_PELIPPER; mkMon 25 30 SPECIES_PELIPPER]))
     None
     (Some (mkMons 30 [mkMon 5 10 SPECIES_MAGIKARP; mkMon 5 10 SPECIES_TENTACOOL; mkMon 10 30 SPECIES_MAGIKARP; mkMon 10 30 SPECIES_TENTACOOL; mkMon 10 30 SPECIES_WAILMER; mkMon 25 30 SPECIES_WAILMER; mkMon 30 35 SPECIES_WAILMER; mkMon 20 25 SPECIES_WAILMER; mkMon 35 40 SPECIES_WAILMER; mkMon 40 45 SPECIES_WAILMER]));
   mkEnc "MAP_ROUTE122" "Route122_Ruby"
     None
     (Some (mkMons 4 [mkMon 5 35 SPECIES_TENTACOOL; mkMon 10 30 SPECIES_WINGULL; mkMon 15 25 SPECIES_WINGULL; mkMon 25 30 SPECIES_PELIPPER; mkMon 25 30 SPECIES_PELIPPER]))
     None
     (Some (mkMons 30 [mkMon 5 10 SPECIES_MAGIKARP; mkMon 5 10 SPECIES_TENTACOOL; mkMon 10 30 SPECIES_MAGIKARP; mkMon 10 30 SPECIES_TENTACOOL; mkMon 10 30 SPECIES_WAILMER; mkMon 30 35 SPECIES_SHARPEDO; mkMon 30 35 SPECIES_WAILMER; mkMon 25 30 SPECIES_WAILMER; mkMon 35 40 SPECIES_WAILMER; mkMon 40 45 SPECIES_WAILMER]));
   mkEnc "MAP_ROUTE123" "Route123_Ruby"
     (Some (mkMons 20 [mkMon 26 26 SPECIES_ZIGZAGOON; mkMon 26 26 SPECIES_DUSKULL; mkMon 26 26 SPECIES_LINOONE; mkMon 28 28 SPECIES_DUSKULL; mkMon 28 28 SPECIES_LINOONE; mkMon 26 26 SPECIES_ODDISH; mkMon 28 28 SPECIES_ODDISH; mkMon 28 28 SPECIES_GLOOM; mkMon 26 26 SPECIES_WINGULL; mkMon 27 27 SPECIES_WINGULL; mkMon 28 28 SPECIES_WINGULL; mkMon 25 25 SPECIES_KECLEON]))
     (Some (mkMons 4 [mkMon 5 35 SPECIES_TENTACOOL; mkMon 10 30 SPECIES_WINGULL; mkMon 15 25 SPECIES_WINGULL; mkMon 25 30 SPECIES_PELIPPER; mkMon 25 30 SPECIES_PELIPPER]))
     None
     (Some (mkMons 30 [mkMon 5 10 SPECIES_MAGIKARP; mkMon 5 10 SPECIES_TENTACOOL; mkMon 10 30 SPECIES_MAGIKARP; mkMon 10 30 SPECIES_TENTACOOL; mkMon 10 30 SPECIES_WAILMER; mkMon 25 30 SPECIES_WAILMER; mkMon 30 35 SPECIES_WAILMER; mkMon 20 25 SPECIES_WAILMER; mkMon 35 40 SPECIES_WAILMER; mkMon 40 45 SPECIES_WAILMER]));
   mkEnc "MAP_ROUTE124" "Route124_Ruby"
     None
     (Some (mkMons 4 [mkMon 5 35 SPECIES_TENTACOOL; mkMon 10 30 SPECIES_WINGULL; mkMon 15 25 SPECIES_WINGULL; mkMon 25 30 SPECIES_PELIPPER; mkMon 25 30 SPECIES_PELIPPER]))
     None
     (Some (mkMons 30 [mkMon 5 10 SPECIES_MAGIKARP; mkMon 5 10 SPECIES_TENTACOOL; mkMon 10 30 SPECIES_MAGIKARP; mkMon 10 30 SPECIES_TENTACOOL; mkMon 10 30 SPECIES_WAILMER; mkMon 30 35 SPECIES_SHARPEDO; mkMon 30 35 SPECIES_WAILMER; mkMon 25 30 SPECIES_WAILMER; mkMon 35 40 SPECIES_WAILMER; mkMon 40 45 SPECIES_WAILMER]));
   mkEnc "MAP_ROUTE125" "Route125_Ruby"
     None
     (Some (mkMons 4 [mkMon 5 35 SPECIES_TENTACOOL; mkMon 10 30 SPECIES_WINGULL; mkMon 15 25 SPECIES_WINGULL; mkMon 25 30 SPECIES_PELIPPER; mkMon 25 30 SPECIES_PELIPPER]))
     None
     (Some (mkMons 30 [mkMon 5 10 SPECIES_MAGIKARP; mkMon 5 10 SPECIES_TENTACOOL; mkMon 10 30 SPECIES_MAGIKARP; mkMon 10 30 SPECIES_TENTACOOL; mkMon 10 30 SPECIES_WAILMER; mkMon 30 35 SPECIES_SHARPEDO; mkMon 30 35 SPECIES_WAILMER; mkMon 25 30 SPECIES_WAILMER; mkMon 35 40 SPECIES_WAILMER; mkMon 40 45 SPECIES_WAILMER]));
   mkEnc "MAP_ROUTE126" "Route126_Ruby"
     None
     (Some (mkMons 4 [mkMon 5 35 SPECIES_TENTACOOL; mkMon 10 30 SPECIES_WINGULL; mkMon 15 25 SPECIES_WINGULL; mkMon 25 30 SPECIES_PELIPPER; mkMon 25 30 SPECIES_PELIPPER]))
     None
     (Some (mkMons 30 [mkMon 5 10 SPECIES_MAGIKARP; mkMon 5 10 SPECIES_TENTACOOL; mkMon 10 30 SPECIES_MAGIKARP; mkMon 10 30 SPECIES_TENTACOOL; mkMon 10 30 SPECIES_WAILMER; mkMon 30 35 SPECIES_SHARPEDO; mkMon 30 35 SPECIES_WAILMER; mkMon 25 30 SPECIES_WAILMER; mkMon 35 40 SPECIES_WAILMER; mkMon 40 45 SPECIES_WAILMER]));
   mkEnc "MAP_ROUTE127" "Route127_Ruby"
     None
     (Some (mkMons 4 [mkMon 5 35 SPECIES_TENTACOOL; mkMon 10 30 SPECIES_WINGULL; mkMon 15 25 SPECIES_WINGULL; mkMon 25 30 SPECIES_PELIPPER; mkMon 25 30 SPECIES_PELIPPER]))
     None
     (Some (mkMons 30 [mkMon 5 10 SPECIES_MAGIKARP; mkMon 5 10 SPECIES_TENTACOOL; mkMon 10 30 SPECIES_MAGIKARP; mkMon 10 30 SPECIES_TENTACOOL; mkMon 10 30 SPECIES_WAILMER; mkMon 30 35 SPECIES_SHARPEDO; mkMon 30 35 SPECIES_WAILMER; mkMon 25 30 SPECIES_WAILMER; mkMon 35 40 SPECIES_WAILMER; mkMon 40 45 SPECIES_WAILMER]));
   mkEnc "MAP_ROUTE128" "Route128_Ruby"
     None
     (Some (mkMons 4 [mkMon 5 35 SPECIES_TENTACOOL; mkMon 10 30 SPECIES_WINGULL; mkMon 15 25 SPECIES_WINGULL; mkMon 25 30 SPECIES_PELIPPER; mkMon 25 30 SPECIES_PELIPPER]))
     None
     (Some (mkMons 30 [mkMon 5 10 SPECIES_MAGIKARP; mkMon 5 10 SPECIES_TENTACOOL; mkMon 10 30 SPECIES_MAGIKARP; mkMon 10 30 SPECIES_LUVDISC; mkMon 10 30 SPECIES_WAILMER; mkMon 30 35 SPECIES_LUVDISC; mkMon 30 35 SPECIES_WAILMER; mkMon 30 35 SPECIES_CORSOLA; mkMon 35 40 SPECIES_WAILMER; mkMon 40 45 SPECIES_WAILMER]));
   mkEnc "MAP_ROUTE129" "Route129_Ruby"
     None
     (Some (mkMons 4 [mkMon 5 35 SPECIES_TENTACOOL; mkMon 10 30 SPECIES_WINGULL; mkMon 15 25 SPECIES_WINGULL; mkMon 25 30 SPECIES_PELIPPER; mkMon 35 40 SPECIES_WAILORD]))
     None
     (Some (mkMons 30 [mkMon 5 10 SPECIES_MAGIKARP; mkMon 5 10 SPECIES_TENTACOOL; mkMon 10 30 SPECIES_MAGIKARP; mkMon 10 30 SPECIES_TENTACOOL; mkMon 10 30 SPECIES_WAILMER; mkMon 30 35 SPECIES_SHARPEDO; mkMon 30 35 SPECIES_WAILMER; mkMon 25 30 SPECIES_WAILMER; mkMon 35 40 SPECIES_WAILMER; mkMon 40 45 SPECIES_WAILMER]));
   mkEnc "MAP_ROUTE130" "Route130_Ruby"
     (Some (mkMons 20 [mkMon 30 30 SPECIES_WYNAUT; mkMon 35 35 SPECIES_WYNAUT; mkMon 25 25 SPECIES_WYNAUT; mkMon 40 40 SPECIES_WYNAUT; mkMon 20 20 SPECIES_WYNAUT; mkMon 45 45 SPECIES_WYNAUT; mkMon 15 15 SPECIES_WYNAUT; mkMon 50 50 SPECIES_WYNAUT; mkMon 10 10 SPECIES_WYNAUT; mkMon 5 5 SPECIES_WYNAUT; mkMon 10 10 SPECIES_WYNAUT; mkMon 5 5 SPECIES_WYNAUT]))
     (Some (mkMons 4 [mkMon 5 35 SPECIES_TENTACOOL; mkMon 10 30 SPECIES_WINGULL; mkMon 15 25 SPECIES_WINGULL; mkMon 25 30 SPECIES_PELIPPER; mkMon 25 30 SPECIES_PELIPPER]))
     None
     (Some (mkMons 30 [mkMon 5 10 SPECIES_MAGIKARP; mkMon 5 10 SPECIES_TENTACOOL; mkMon 10 30 SPECIES_MAGIKARP; mkMon 10 30 SPECIES_TENTACOOL; mkMon 10 30 SPECIES_WAILMER; mkMon 30 35 SPECIES_SHARPEDO; mkMon 30 35 SPECIES_WAILMER; mkMon 25 30 SPECIES_WAILMER; mkMon 35 40 SPECIES_WAILMER; mkMon 40 45 SPECIES_WAILMER]));
   mkEnc "MAP_ROUTE131" "Route131_Ruby"
     None
     (Some (mkMons 4 [mkMon 5 35 SPECIES_TENTACOOL; mkMon 10 30 SPECIES_WINGULL; mkMon 15 25 SPECIES_WINGULL; mkMon 25 30 SPECIES_PELIPPER; mkMon 25 30 SPECIES_PELIPPER]))
     None
     (Some (mkMons 30 [mkMon 5 10 SPECIES_MAGIKARP; mkMon 5 10 SPECIES_TENTACOOL; mkMon 10 30 SPECIES_MAGIKARP; mkMon 10 30 SPECIES_TENTACOOL; mkMon 10 30 SPECIES_WAILMER; mkMon 30 35 SPECIES_SHARPEDO; mkMon 30 35 SPECIES_WAILMER; mkMon 25 30 SPECIES_WAILMER; mkMon 35 40 SPECIES_WAILMER; mkMon 40 45 SPECIES_WAILMER]));
   mkEnc "MAP_ROUTE132" "Route132_Ruby"
     None
     (Some (mkMons 4 [mkMon 5 35 SPECIES_TENTACOOL; mkMon 10 30 SPECIES_WINGULL; mkMon 15 25 SPECIES_WINGULL; mkMon 25 30 SPECIES_PELIPPER; mkMon 25 30 SPECIES_PELIPPER]))
     None
     (Some (mkMons 30 [mkMon 5 10 SPECIES_MAGIKARP; mkMon 5 10 SPECIES_TENTACOOL; mkMon 10 30 SPECIES_MAGIKARP; mkMon 10 30 SPECIES_TENTACOOL; mkMon 10 30 SPECIES_WAILMER; mkMon 30 35 SPECIES_SHARPEDO; mkMon 30 35 SPECIES_WAILMER; mkMon 25 30 SPECIES_HORSEA; mkMon 35 40 SPECIES_WAILMER; mkMon 40 45 SPECIES_WAILMER]));
   mkEnc "MAP_ROUTE133" "Route133_Ruby"
     None
     (Some (mkMons 4 [mkMon 5 35 SPECIES_TENTACOOL; mkMon 10 30 SPECIES_WINGULL; mkMon 15 25 SPECIES_WINGULL; mkMon 25 30 SPECIES_PELIPPER; mkMon 25 30 SPECIES_PELIPPER]))
     None
     (Some (mkMons 30 [mkMon 5 10 SPECIES_MAGIKARP; mkMon 5 10 SPECIES_TENTACOOL; mkMon 10 30 SPECIES_MAGIKARP; mkMon 10 30 SPECIES_TENTACOOL; mkMon 10 30 SPECIES_WAILMER; mkMon 30 35 SPECIES_SHARPEDO; mkMon 30 35 SPECIES_WAILMER; mkMon 25 30 SPECIES_HORSEA; mkMon 35 40 SPECIES_WAILMER; mkMon 40 45 SPECIES_WAILMER]));
   mkEnc "MAP_ROUTE134" "Route134_Ruby"
     None
     (Some (mkMons 4 [mkMon 5 35 SPECIES_TENTACOOL; mkMon 10 30 SPECIES_WINGULL; mkMon 15 25 SPECIES_WINGULL; mkMon 25 30 SPECIES_PELIPPER; mkMon 25 30 SPECIES_PELIPPER]))
     None
     (Some (mkMons 30 [mkMon 5 10 SPECIES_MAGIKARP; mkMon 5 10 SPECIES_TENTACOOL; mkMon 10 30 SPECIES_MAGIKARP; mkMon 10 30 SPECIES_TENTACOOL; mkMon 10 30 SPECIES_WAILMER; mkMon 30 35 SPECIES_SHARPEDO; mkMon 30 35 SPECIES_WAILMER; mkMon 25 30 SPECIES_HORSEA; mkMon 35 40 SPECIES_WAILMER; mkMon 40 45 SPECIES_WAILMER]));
   mkEnc "MAP_SAFARI_ZONE_NORTHWEST" "SafariZone_Northwest_Ruby"
     (Some (mkMons 25 [mkMon 27 27 SPECIES_RHYHORN; mkMon 27 27 SPECIES_ODDISH; mkMon 29 29 SPECIES_RHYHORN; mkMon 29 29 SPECIES_ODDISH; mkMon 27 27 SPECIES_DODUO; mkMon 29 29 SPECIES_GLOOM; mkMon 31 31 SPECIES_GLOOM; mkMon 29 29 SPECIES_DODUO; mkMon 29 29 SPECIES_DODRIO; mkMon 27 27 SPECIES_PINSIR; mkMon 31 31 SPECIES_DODRIO; mkMon 29 29 SPECIES_PINSIR]))
     (Some (mkMons 9 [mkMon 20 30 SPECIES_PSYDUCK; mkMon 20 30 SPECIES_PSYDUCK; mkMon 30 35 SPECIES_PSYDUCK; mkMon 30 35 SPECIES_GOLDUCK; mkMon 25 40 SPECIES_GOLDUCK]))
     None
     (Some (mkMons 35 [mkMon 5 10 SPECIES_MAGIKARP; mkMon 5 10 SPECIES_GOLDEEN; mkMon 10 30 SPECIES_MAGIKARP; mkMon 10 25 SPECIES_GOLDEEN; mkMon 10 30 SPECIES_GOLDEEN; mkMon 25 30 SPECIES_GOLDEEN; mkMon 30 35 SPECIES_GOLDEEN; mkMon 30 35 SPECIES_SEAKING; mkMon 35 40 SPECIES_SEAKING; mkMon 25 30 SPECIES_SEAKING]));
   mkEnc "MAP_SAFARI_ZONE_NORTHEAST" "SafariZone_Northeast_Ruby"
     (Some (mkMons 25 [mkMon 27 27 SPECIES_PHANPY; mkMon 27 27 SPECIES_ODDISH; mkMon 29 29 SPECIES_PHANPY; mkMon 29 29 SPECIES_ODDISH; mkMon 27 27 SPECIES_NATU; mkMon 29 29 SPECIES_GLOOM; mkMon 31 31 SPECIES_GLOOM; mkMon 29 29 SPECIES_NATU; mkMon 29 29 SPECIES_XATU; mkMon 27 27 SPECIES_HERACROSS; mkMon 31 31 SPECIES_XATU; mkMon 29 29 SPECIES_HERACROSS]))
     None
     (Some (mkMons 25 [mkMon 10 15 SPECIES_GEODUDE; mkMon 5 10 SPECIES_GEODUDE; mkMon 15 20 SPECIES_GEODUDE; mkMon 20 25 SPECIES_GEODUDE; mkMon 25 30 SPECIES_GEODUDE]))
     None;
   mkEnc "MAP_SAFARI_ZONE_SOUTHWEST" "SafariZone_Southwest_Ruby"
     (Some (mkMons 25 [mkMon 25 25 SPECIES_ODDISH; mkMon 27 27 SPECIES_ODDISH; mkMon 25 25 SPECIES_GIRAFARIG; mkMon 27 27 SPECIES_GIRAFARIG; mkMon 25 25 SPECIES_NATU; mkMon 25 25 SPECIES_DODUO; mkMon 25 25 SPECIES_GLOOM; mkMon 27 27 SPECIES_WOBBUFFET; mkMon 25 25 SPECIES_PIKACHU; mkMon 27 27 SPECIES_WOBBUFFET; mkMon 27 27 SPECIES_PIKACHU; mkMon 29 29 SPECIES_WOBBUFFET]))
     (Some (mkMons 9 [mkMon 20 30 SPECIES_PSYDUCK; mkMon 20 30 SPECIES_PSYDUCK; mkMon 30 35 SPECIES_PSYDUCK; mkMon 30 35 SPECIES_PSYDUCK; mkMon 30 35 SPECIES_PSYDUCK]))
     None
     (Some (mkMons 35 [mkMon 5 10 SPECIES_MAGIKARP; mkMon 5 10 SPECIES_GOLDEEN; mkMon 10 30 SPECIES_MAGIKARP; mkMon 10 25 SPECIES_GOLDEEN; mkMon 10 30 SPECIES_GOLDEEN; mkMon 25 30 SPECIES_GOLDEEN; mkMon 30 35 SPECIES_GOLDEEN; mkMon 30 35 SPECIES_SEAKING; mkMon 35 40 SPECIES_SEAKING; mkMon 25 30 SPECIES_SEAKING]));
   mkEnc "MAP_SAFARI_ZONE_SOUTHEAST" "SafariZone_Southeast_Ruby"
     (Some (mkMons 25 [mkMon 25 25 SPECIES_ODDISH; mkMon 27 27 SPECIES_ODDISH; mkMon 25 25 SPECIES_GIRAFARIG; mkMon 27 27 SPECIES_GIRAFARIG; mkMon 25 25 SPECIES_NATU; mkMon 25 25 SPECIES_DODUO; mkMon 25 25 SPECIES_GLOOM; mkMon 27 27 SPECIES_WOBBUFFET; mkMon 25 25 SPECIES_PIKACHU; mkMon 27 27 SPECIES_WOBBUFFET; mkMon 27 27 SPECIES_PIKACHU; mkMon 29 29 SPECIES_WOBBUFFET]))
     None
     None
     None;
   mkEnc "MAP_DEWFORD_TOWN" "DewfordTown_Ruby"
     None
     (Some (mkMons 4 [mkMon 5 35 SPECIES_TENTACOOL; mkMon 10 30 SPECIES_WINGULL; mkMon 15 25 SPECIES_WINGULL; mkMon 25 30 SPECIES_PELIPPER; mkMon 25 30 SPECIES_PELIPPER]))
     None
     (Some (mkMons 10 [mkMon 5 10 SPECIES_MAGIKARP; mkMon 5 10 SPECIES_TENTACOOL; mkMon 10 30 SPECIES_MAGIKARP; mkMon 10 30 SPECIES_TENTACOOL; mkMon 10 30 SPECIES_WAILMER; mkMon 25 30 SPECIES_WAILMER; mkMon 30 35 SPECIES_WAILMER; mkMon 20 25 SPECIES_WAILMER; mkMon 35 40 SPECIES_WAILMER; mkMon 40 45 SPECIES_WAILMER]));
   mkEnc "MAP_PACIFIDLOG_TOWN" "PacifidlogTown_Ruby"
     None
     (Some (mkMons 4 [mkMon 5 35 SPECIES_TENTACOOL; mkMon 10 30 SPECIES_WINGULL; mkMon 15 25 SPECIES_WINGULL; mkMon 25 30 SPECIES_PELIPPER; mkMon 25 30 SPECIES_PELIPPER]))
     None
     (Some (mkMons 10 [mkMon 5 10 SPECIES_MAGIKARP; mkMon 5 10 SPECIES_TENTACOOL; mkMon 10 30 SPECIES_MAGIKARP; mkMon 10 30 SPECIES_TENTACOOL; mkMon 10 30 SPECIES_WAILMER; mkMon 30 35 SPECIES_SHARPEDO; mkMon 30 35 SPECIES_WAILMER; mkMon 25 30 SPECIES_WAILMER; mkMon 35 40 SPECIES_WAILMER; mkMon 40 45 SPECIES_WAILMER]));
   mkEnc "MAP_UNDERWATER1" "Underwater1_Ruby"
     None
     (Some (mkMons 4 [mkMon 20 30 SPECIES_CLAMPERL; mkMon 20 30 SPECIES_CHINCHOU; mkMon 30 35 SPECIES_CLAMPERL; mkMon 30 35 SPECIES_RELICANTH; mkMon 30 35 SPECIES_RELICANTH]))
     None
     None;
   mkEnc "MAP_UNDERWATER2" "Underwater2_Ruby"
     None
     (Some (mkMons 4 [mkMon 20 30 SPECIES_CLAMPERL; mkMon 20 30 SPECIES_CHINCHOU; mkMon 30 35 SPECIES_CLAMPERL; mkMon 30 35 SPECIES_RELICANTH; mkMon 30 35 SPECIES_RELICANTH]))
     None
     None;
   mkEnc "MAP_PETALBURG_CITY" "PetalburgCity_Sapphire"
     None
     (Some (mkMons 1 [mkMon 20 30 SPECIES_MARILL; mkMon 10 20 SPECIES_MARILL; mkMon 30 35 SPECIES_MARILL; mkMon 5 10 SPECIES_MARILL; mkMon 5 10 SPECIES_MARILL]))
     None
     (Some (mkMons 10 [mkMon 5 10 SPECIES_MAGIKARP; mkMon 5 10 SPECIES_GOLDEEN; mkMon 10 30 SPECIES_MAGIKARP; mkMon 10 30 SPECIES_GOLDEEN; mkMon 10 30 SPECIES_CORPHISH; mkMon 25 30 SPECIES_CORPHISH; mkMon 30 35 SPECIES_CORPHISH; mkMon 20 25 SPECIES_CORPHISH; mkMon 35 40 SPECIES_CORPHISH; mkMon 40 45 SPECIES_CORPHISH]));
   mkEnc "MAP_SLATEPORT_CITY" "SlateportCity_Sapphire"
     None
     (Some (mkMons 4 [mkMon 5 35 SPECIES_TENTACOOL; mkMon 10 30 SPECIES_WINGULL; mkMon 15 25 SPECIES_WINGULL; mkMon 25 30 SPECIES_PELIPPER; mkMon 25 30 SPECIES_PELIPPER]))
     None
     (Some (mkMons 10 [mkMon 5 10 SPECIES_MAGIKARP; mkMon 5 10 SPECIES_TENTACOOL; mkMon 10 30 SPECIES_MAGIKARP; mkMon 10 30 SPECIES_TENTACOOL; mkMon 10 30 SPECIES_WAILMER; mkMon 25 30 SPECIES_WAILMER; mkMon 30 35 SPECIES_WAILMER; mkMon 20 25 SPECIES_WAILMER; mkMon 35 40 SPECIES_WAILMER; mkMon 40 45 SPECIES_WAILMER]));
   mkEnc "MAP_LILYCOVE_CITY" "LilycoveCity_Sapphire"
     None
     (Some (mkMons 4 [mkMon 5 35 SPECIES_TENTACOOL; mkMon 10 30 SPECIES_WINGULL; mkMon 15 25 SPECIES_WINGULL; mkMon 25 30 SPECIES_PELIPPER; mkMon 25 30 SPECIES_PELIPPER]))
     None
     (Some (mkMons 10 [mkMon 5 10 SPECIES_MAGIKARP; mkMon 5 10 SPECIES_TENTACOOL; mkMon 10 30 SPECIES_MAGIKARP; mkMon 10 30 SPECIES_TENTACOOL; mkMon 10 30 SPECIES_WAILMER; mkMon 25 30 SPECIES_WAILMER; mkMon 30 35 SPECIES_WAILMER; mkMon 25 30 SPECIES_STARYU; mkMon 35 40 SPECIES_WAILMER; mkMon 40 45 SPECIES_WAILMER]));
   mkEnc "MAP_MOSSDEEP_CITY" "MossdeepCity_Sapphire"
     None
     (Some (mkMons 4 [mkMon 5 35 SPECIES_TENTACOOL; mkMon 10 30 SPECIES_WINGULL; mkMon 15 25 SPECIES_WINGULL; mkMon 25 30 SPECIES_PELIPPER; mkMon 25 30 SPECIES_PELIPPER]))
     None
     (Some (mkMons 10 [mkMon 5 10 SPECIES_MAGIKARP; mkMon 5 10 SPECIES_TENTACOOL; mkMon 10 30 SPECIES_MAGIKARP; mkMon 10 30 SPECIES_TENTACOOL; mkMon 10 30 SPECIES_WAILMER; mkMon 30 35 SPECIES_SHARPEDO; mkMon 30 35 SPECIES_WAILMER; mkMon 25 30 SPECIES_WAILMER; mkMon 35 40 SPECIES_WAILMER; mkMon 40 45 SPECIES_WAILMER]));
   mkEnc "MAP_SOOTOPOLIS_CITY" "SootopolisCity_Sapphire"
     None
     (Some (mkMons 1 [mkMon 5 35 SPECIES_MAGIKARP; mkMon 10 30 SPECIES_MAGIKARP; mkMon 15 25 SPECIES_MAGIKARP; mkMon 25 30 SPECIES_MAGIKARP; mkMon 25 30 SPECIES_MAGIKARP]))
     None
     (Some (mkMons 10 [mkMon 5 10 SPECIES_MAGIKARP; mkMon 5 10 SPECIES_TENTACOOL; mkMon 10 30 SPECIES_MAGIKARP; mkMon 10 30 SPECIES_MAGIKARP; mkMon 10 30 SPECIES_MAGIKARP; mkMon 30 35 SPECIES_MAGIKARP; mkMon 30 35 SPECIES_MAGIKARP; mkMon 35 40 SPECIES_GYARADOS; mkMon 35 45 SPECIES_GYARADOS; mkMon 5 45 SPECIES_GYARADOS]));
   mkEnc "MAP_EVER_GRANDE_CITY" "EverGrandeCity_Sapphire"
     None
     (Some (mkMons 4 [mkMon 5 35 SPECIES_TENTACOOL; mkMon 10 30 SPECIES_WINGULL; mkMon 15 25 SPECIES_WINGULL; mkMon 25 30 SPECIES_PELIPPER; mkMon 25 30 SPECIES_PELIPPER]))
     None
     (Some (mkMons 10 [mkMon 5 10 SPECIES_MAGIKARP; mkMon 5 10 SPECIES_TENTACOOL; mkMon 10 30 SPECIES_MAGIKARP; mkMon 10 30 SPECIES_LUVDISC; mkMon 10 30 SPECIES_WAILMER; mkMon 30 35 SPECIES_LUVDISC; mkMon 30 35 SPECIES_WAILMER; mkMon 30 35 SPECIES_CORSOLA; mkMon 35 40 SPECIES_WAILMER; mkMon 40 45 SPECIES_WAILMER]));
   mkEnc "MAP_METEOR_FALLS_1F_1R" "MeteorFalls_1F_1R_Sapphire"
     (Some (mkMons 10 [mkMon 16 16 SPECIES_ZUBAT; mkMon 17 17 SPECIES_ZUBAT; mkMon 18 18 SPECIES_ZUBAT; mkMon 15 15 SPECIES_ZUBAT; mkMon 14 14 SPECIES_ZUBAT; mkMon 16 16 SPECIES_LUNATONE; mkMon 18 18 SPECIES_LUNATONE; mkMon 14 14 SPECIES_LUNATONE; mkMon 19 19 SPECIES_ZUBAT; mkMon 20 20 SPECIES_ZUBAT; mkMon 19 19 SPECIES_ZUBAT; mkMon 20 20 SPECIES_ZUBAT]))
     (Some (mkMons 4 [mkMon 5 35 SPECIES_ZUBAT; mkMon 30 35 SPECIES_ZUBAT; mkMon 25 35 SPECIES_LUNATONE; mkMon 15 25 SPECIES_LUNATONE; mkMon 5 15 SPECIES_LUNATONE]))
     None
     (Some (mkMons 30 [mkMon 5 10 SPECIES_MAGIKARP; mkMon 5 10 SPECIES_GOLDEEN; mkMon 10 30 SPECIES_MAGIKARP; mkMon 10 30 SPECIES_GOLDEEN; mkMon 10 30 SPECIES_BARBOACH; mkMon 25 30 SPECIES_BARBOACH; mkMon 30 35 SPECIES_BARBOACH; mkMon 20 25 SPECIES_BARBOACH; mkMon 35 40 SPECIES_BARBOACH; mkMon 40 45 SPECIES_BARBOACH]));
   mkEnc "MAP_METEOR_FALLS_1F_2R" "MeteorFalls_1F_2R_Sapphire"
     (Some (mkMons 10 [mkMon 33 33 SPECIES_GOLBAT; mkMon 35 35 SPECIES_GOLBAT; mkMon 33 33 SPECIES_GOLBAT; mkMon 35 35 SPECIES_LUNATONE; mkMon 33 33 SPECIES_LUNATONE; mkMon 37 37 SPECIES_LUNATONE; mkMon 35 35 SPECIES_GOLBAT; mkMon 39 39 SPECIES_LUNATONE; mkMon 38 38 SPECIES_GOLBAT; mkMon 40 40 SPECIES_GOLBAT; mkMon 38 38 SPECIES_GOLBAT; mkMon 40 40 SPECIES_GOLBAT]))
     (Some (mkMons 4 [mkMon 30 35 SPECIES_GOLBAT; mkMon 30 35 SPECIES_GOLBAT; mkMon 25 35 SPECIES_LUNATONE; mkMon 15 25 SPECIES_LUNATONE; mkMon 5 15 SPECIES_LUNATONE]))
     None
     (Some (mkMons 30 [mkMon 5 10 SPECIES_MAGIKARP; mkMon 5 10 SPECIES_GOLDEEN; mkMon 10 30 SPECIES_MAGIKARP; mkMon 10 30 SPECIES_GOLDEEN; mkMon 10 30 SPECIES_BARBOACH; mkMon 25 30 SPECIES_BARBOACH; mkMon 30 35 SPECIES_BARBOACH; mkMon 30 35 SPECIES_WHISCASH; mkMon 35 40 SPECIES_WHISCASH; mkMon 40 45 SPECIES_WHISCASH]));
   mkEnc "MAP_METEOR_FALLS_B1F_1R" "MeteorFalls_B1F_1R_Sapphire"
     (Some (mkMons 10 [mkMon 33 33 SPECIES_GOLBAT; mkMon 35 35 SPECIES_GOLBAT; mkMon 33 33 SPECIES_GOLBAT; mkMon 35 35 SPECIES_LUNATONE; mkMon 33 33 SPECIES_LUNATONE; mkMon 37 37 SPECIES_LUNATONE; mkMon 35 35 SPECIES_GOLBAT; mkMon 39 39 SPECIES_LUNATONE; mkMon 38 38 SPECIES_GOLBAT; mkMon 40 40 SPECIES_GOLBAT; mkMon 38 38 SPECIES_GOLBAT; mkMon 40 40 SPECIES_GOLBAT]))
     (Some (mkMons 4 [mkMon 30 35 SPECIES_GOLBAT; mkMon 30 35 SPECIES_GOLBAT; mkMon 25 35 SPECIES_LUNATONE; mkMon 15 25 SPECIES_LUNATONE; mkMon 5 15 SPECIES_LUNATONE]))
     None
     (Some (mkMons 30 [mkMon 5 10 SPECIES_MAGIKARP; mkMon 5 10 SPECIES_GOLDEEN; mkMon 10 30 SPECIES_MAGIKARP; mkMon 10 30 SPECIES_GOLDEEN; mkMon 10 30 SPECIES_BARBOACH; mkMon 25 30 SPECIES_BARBOACH; mkMon 30 35 SPECIES_BARBOACH; mkMon 30 35 SPECIES_WHISCASH; mkMon 35 40 SPECIES_WHISCASH; mkMon 40 45 SPECIES_WHISCASH]));
   mkEnc "MAP_METEOR_FALLS_B1F_2R" "MeteorFalls_B1F_2R_Sapphire"
     (Some (mkMons 10 [mkMon 33 33 SPECIES_GOLBAT; mkMon 35 35 SPECIES_GOLBAT; mkMon 30 30 SPECIES_BAGON; mkMon 35 35 SPECIES_LUNATONE; mkMon 35 35 SPECIES_BAGON; mkMon 37 37 SPECIES_LUNATONE; mkMon 25 25 SPECIES_BAGON; mkMon 39 39 SPECIES_LUNATONE; mkMon 38 38 SPECIES_GOLBAT; mkMon 40 40 SPECIES_GOLBAT; mkMon 38 38 SPECIES_GOLBAT; mkMon 40 40 SPECIES_GOLBAT]))
     (Some (mkMons 4 [mkMon 30 35 SPECIES_GOLBAT; mkMon 30 35 SPECIES_GOLBAT; mkMon 25 35 SPECIES_LUNATONE; mkMon 15 25 SPECIES_LUNATONE; mkMon 5 15 SPECIES_LUNATONE]))
     None
     (Some (mkMons 30 [mkMon 5 10 SPECIES_MAGIKARP; mkMon 5 10 SPECIES_GOLDEEN; mkMon 10 30 SPECIES_MAGIKARP; mkMon 10 30 SPECIES_GOLDEEN; mkMon 10 30 SPECIES_BARBOACH; mkMon 25 30 SPECIES_BARBOACH; mkMon 30 35 SPECIES_BARBOACH; mkMon 30 35 SPECIES_WHISCASH; mkMon 35 40 SPECIES_WHISCASH; mkMon 40 45 SPECIES_WHISCASH]));
   mkEnc "MAP_RUSTURF_TUNNEL" "RusturfTunnel_Sapphire"
     (Some (mkMons 10 [mkMon 6 6 SPECIES_WHISMUR; mkMon 7 7 SPECIES_WHISMUR; mkMon 6 6 SPECIES_WHISMUR; mkMon 6 6 SPECIES_WHISMUR; mkMon 7 7 SPECIES_WHISMUR; mkMon 7 7 SPECIES_WHISMUR; mkMon 5 5 SPECIES_WHISMUR; mkMon 8 8 SPECIES_WHISMUR; mkMon 5 5 SPECIES_WHISMUR; mkMon 8 8 SPECIES_WHISMUR; mkMon 5 5 SPECIES_WHISMUR; mkMon 8 8 SPECIES_WHISMUR]))
     None
     None
     None;
   mkEnc "MAP_GRANITE_CAVE_1F" "GraniteCave_1F_Sapphire"
     (Some (mkMons 10 [mkMon 7 7 SPECIES_ZUBAT; mkMon 8 8 SPECIES_MAKUHITA; mkMon 7 7 SPECIES_MAKUHITA; mkMon 8 8 SPECIES_ZUBAT; mkMon 9 9 SPECIES_MAKUHITA; mkMon 8 8 SPECIES_ABRA; mkMon 10 10 SPECIES_MAKUHITA; mkMon 6 6 SPECIES_MAKUHITA; mkMon 7 7 SPECIES_GEODUDE; mkMon 8 8 SPECIES_GEODUDE; mkMon 6 6 SPECIES_GEODUDE; mkMon 9 9 SPECIES_GEODUDE]))
     None
     None
     None;
   mkEnc "MAP_GRANITE_CAVE_B1F" "GraniteCave_B1F_Sapphire"
     (Some (mkMons 10 [mkMon 9 9 SPECIES_ZUBAT; mkMon 10 10 SPECIES_ARON; mkMon 9 9 SPECIES_ARON; mkMon 11 11 SPECIES_ARON; mkMon 10 10 SPECIES_ZUBAT; mkMon 9 9 SPECIES_ABRA; mkMon 10 10 SPECIES_MAKUHITA; mkMon 11 11 SPECIES_MAKUHITA; mkMon 10 10 SPECIES_SABLEYE; mkMon 10 10 SPECIES_SABLEYE; mkMon 9 9 SPECIES_SABLEYE; mkMon 11 11 SPECIES_SABLEYE]))
     None
     None
     None;
   mkEnc "MAP_GRANITE_CAVE_B2F" "GraniteCave_B2F_Sapphire"
     (Some (mkMons 10 [mkMon 10 10 SPECIES_ZUBAT; mkMon 11 11 SPECIES_ARON; mkMon 10 10 SPECIES_ARON; mkMon 11 11 SPECIES_ZUBAT; mkMon 12 12 SPECIES_ARON; mkMon 10 10 SPECIES_ABRA; mkMon 10 10 SPECIES_SABLEYE; mkMon 11 11 SPECIES_SABLEYE; mkMon 12 12 SPECIES_SABLEYE; mkMon 10 10 SPECIES_SABLEYE; mkMon 12 12 SPECIES_SABLEYE; mkMon 10 10 SPECIES_SABLEYE]))
     None
     (Some (mkMons 20 [mkMon 10 15 SPECIES_GEODUDE; mkMon 10 20 SPECIES_NOSEPASS; mkMon 5 10 SPECIES_GEODUDE; mkMon 15 20 SPECIES_GEODUDE; mkMon 15 20 SPECIES_GEODUDE]))
     None;
   mkEnc "MAP_GRANITE_CAVE_STEVENS_ROOM" "GraniteCave_StevensRoom_Sapphire"
     (Some (mkMons 10 [mkMon 7 7 SPECIES_ZUBAT; mkMon 8 8 SPECIES_MAKUHITA; mkMon 7 7 SPECIES_MAKUHITA; mkMon 8 8 SPECIES_ZUBAT; mkMon 9 9 SPECIES_MAKUHITA; mkMon 8 8 SPECIES_ABRA; mkMon 10 10 SPECIES_MAKUHITA; mkMon 6 6 SPECIES_MAKUHITA; mkMon 7 7 SPECIES_ARON; mkMon 8 8 SPECIES_ARON; mkMon 7 7 SPECIES_ARON; mkMon 8 8 SPECIES_ARON]))
     None
     None
     None;
   mkEnc "MAP_PETALBURG_WOODS" "PetalburgWoods_Sapphire"
     (Some (mkMons 20 [mkMon 5 5 SPECIES_ZIGZAGOON; mkMon 5 5 SPECIES_WURMPLE; mkMon 5 5 SPECIES_SHROOMISH; mkMon 6 6 SPECIES_ZIGZAGOON; mkMon 5 5 SPECIES_SILCOON; mkMon 5 5 SPECIES_CASCOON; mkMon 6 6 SPECIES_WURMPLE; mkMon 6 6 SPECIES_SHROOMISH; mkMon 5 5 SPECIES_TAILLOW; mkMon 5 5 SPECIES_SLAKOTH; mkMon 6 6 SPECIES_TAILLOW; mkMon 6 6 SPECIES_SLAKOTH]))
     None
     None
     None;
   mkEnc "MAP_JAGGED_PASS" "JaggedPass_Sapphire"
     (Some (mkMons 20 [mkMon 21 21 SPECIES_NUMEL; mkMon 21 21 SPECIES_NUMEL; mkMon 21 21 SPECIES_MACHOP; mkMon 20 20 SPECIES_NUMEL; mkMon 20 20 SPECIES_SPOINK; mkMon 20 20 SPECIES_MACHOP; mkMon 21 21 SPECIES_SPOINK; mkMon 22 22 SPECIES_MACHOP; mkMon 22 22 SPECIES_NUMEL; mkMon 22 22 SPECIES_SPOINK; mkMon 22 22 SPECIES_NUMEL; mkMon 22 22 SPECIES_SPOINK]))
     None
     None
     None;
   mkEnc "MAP_FIERY_PATH" "FieryPath_Sapphire"
     (Some (mkMons 10 [mkMon 15 15 SPECIES_NUMEL; mkMon 15 15 SPECIES_GRIMER; mkMon 16 16 SPECIES_NUMEL; mkMon 15 15 SPECIES_MACHOP; mkMon 15 15 SPECIES_TORKOAL; mkMon 15 15 SPECIES_SLUGMA; mkMon 16 16 SPECIES_GRIMER; mkMon 16 16 SPECIES_MACHOP; mkMon 14 14 SPECIES_TORKOAL; mkMon 16 16 SPECIES_TORKOAL; mkMon 14 14 SPECIES_KOFFING; mkMon 14 14 SPECIES_KOFFING]))
     None
     None
     None;
   mkEnc "MAP_MT_PYRE_1F" "MtPyre_1F_Sapphire"
     (Some (mkMons 10 [mkMon 27 27 SPECIES_SHUPPET; mkMon 28 28 SPECIES_SHUPPET; mkMon 26 26 SPECIES_SHUPPET; mkMon 25 25 SPECIES_SHUPPET; mkMon 29 29 SPECIES_SHUPPET; mkMon 24 24 SPECIES_SHUPPET; mkMon 23 23 SPECIES_SHUPPET; mkMon 22 22 SPECIES_SHUPPET; mkMon 29 29 SPECIES_SHUPPET; mkMon 24 24 SPECIES_SHUPPET; mkMon 29 29 SPECIES_SHUPPET; mkMon 24 24 SPECIES_SHUPPET]))
     None
     None
     None;
   mkEnc "MAP_MT_PYRE_2F" "MtPyre_2F_Sapphire"
     (Some (mkMons 10 [mkMon 27 27 SPECIES_SHUPPET; mkMon 28 28 SPECIES_SHUPPET; mkMon 26 26 SPECIES_SHUPPET; mkMon 25 25 SPECIES_SHUPPET; mkMon 29 29 SPECIES_SHUPPET; mkMon 24 24 SPECIES_SHUPPET; mkMon 23 23 SPECIES_SHUPPET; mkMon 22 22 SPECIES_SHUPPET; mkMon 29 29 SPECIES_SHUPPET; mkMon 24 24 SPECIES_SHUPPET; mkMon 29 29 SPECIES_SHUPPET; mkMon 24 24 SPECIES_SHUPPET]))
     None
     None
     None;
   mkEnc "MAP_MT_PYRE_3F" "MtPyre_3F_Sapphire"
     (Some (mkMons 10 [mkMon 27 27 SPECIES_SHUPPET; mkMon 28 28 SPECIES_SHUPPET; mkMon 26 26 SPECIES_SHUPPET; mkMon 25 25 SPECIES_SHUPPET; mkMon 29 29 SPECIES_SHUPPET; mkMon 24 24 SPECIES_SHUPPET; mkMon 23 23 SPECIES_SHUPPET; mkMon 22 22 SPECIES_SHUPPET; mkMon 29 29 SPECIES_SHUPPET; mkMon 24 24 SPECIES_SHUPPET; mkMon 29 29 SPECIES_SHUPPET; mkMon 24 24 SPECIES_SHUPPET]))
     None
     None
     None;
   mkEnc "MAP_MT_PYRE_4F" "MtPyre_4F_Sapphire"
     (Some (mkMons 10 [mkMon 27 27 SPECIES_SHUPPET; mkMon 28 28 SPECIES_SHUPPET; mkMon 26 26 SPECIES_SHUPPET; mkMon 25 25 SPECIES_SHUPPET; mkMon 29 29 SPECIES_SHUPPET; mkMon 24 24 SPECIES_SHUPPET; mkMon 23 23 SPECIES_SHUPPET; mkMon 22 22 SPECIES_SHUPPET; mkMon 27 27 SPECIES_DUSKULL; mkMon 27 27 SPECIES_DUSKULL; mkMon 25 25 SPECIES_DUSKULL; mkMon 29 29 SPECIES_DUSKULL]))
     None
     None
     None;
   mkEnc "MAP_MT_PYRE_5F" "MtPyre_5F_Sapphire"
     (Some (mkMons 10 [mkMon 27 27 SPECIES_SHUPPET; mkMon 28 28 SPECIES_SHUPPET; mkMon 26 26 SPECIES_SHUPPET; mkMon 25 25 SPECIES_SHUPPET; mkMon 29 29 SPECIES_SHUPPET; mkMon 24 24 SPECIES_SHUPPET; mkMon 23 23 SPECIES_SHUPPET; mkMon 22 22 SPECIES_SHUPPET; mkMon 27 27 SPECIES_DUSKULL; mkMon 27 27 SPECIES_DUSKULL; mkMon 25 25 SPECIES_DUSKULL; mkMon 29 29 SPECIES_DUSKULL]))
     None
     None
     None;
   mkEnc "MAP_MT_PYRE_6F" "MtPyre_6F_Sapphire"
     (Some (mkMons 10 [mkMon 27 27 SPECIES_SHUPPET; mkMon 28 28 SPECIES_SHUPPET; mkMon 26 26 SPECIES_SHUPPET; mkMon 25 25 SPECIES_SHUPPET; mkMon 29 29 SPECIES_SHUPPET; mkMon 24 24 SPECIES_SHUPPET; mkMon 23 23 SPECIES_SHUPPET; mkMon 22 22 SPECIES_SHUPPET; mkMon 27 27 SPECIES_DUSKULL; mkMon 27 27 SPECIES_DUSKULL; mkMon 25 25 SPECIES_DUSKULL; mkMon 29 29 SPECIES_DUSKULL]))
     None
     None
     None;
   mkEnc "MAP_MT_PYRE_EXTERIOR" "MtPyre_Exterior_Sapphire"
     (Some (mkMons 10 [mkMon 27 27 SPECIES_SHUPPET; mkMon 27 27 SPECIES_MEDITITE; mkMon 28 28 SPECIES_SHUPPET; mkMon 29 29 SPECIES_MEDITITE; mkMon 29 29 SPECIES_SHUPPET; mkMon 27 27 SPECIES_VULPIX; mkMon 29 29 SPECIES_VULPIX; mkMon 25 25 SPECIES_VULPIX; mkMon 27 27 SPECIES_WINGULL; mkMon 27 27 SPECIES_WINGULL; mkMon 26 26 SPECIES_WINGULL; mkMon 28 28 SPECIES_WINGULL]))
     None
     None
     None;
   mkEnc "MAP_MT_PYRE_SUMMIT" "MtPyre_Summit_Sapphire"
     (Some (mkMons 10 [mkMon 28 28 SPECIES_SHUPPET; mkMon 29 29 SPECIES_SHUPPET; mkMon 27 27 SPECIES_SHUPPET; mkMon 26 26 SPECIES_SHUPPET; mkMon 30 30 SPECIES_SHUPPET; mkMon 25 25 SPECIES_SHUPPET; mkMon 24 24 SPECIES_SHUPPET; mkMon 28 28 SPECIES_DUSKULL; mkMon 26 26 SPECIES_DUSKULL; mkMon 30 30 SPECIES_DUSKULL; mkMon 28 28 SPECIES_CHIMECHO; mkMon 28 28 SPECIES_CHIMECHO]))
     None
     None
     None;
   mkEnc "MAP_SEAFLOOR_CAVERN_ENTRANCE" "SeafloorCavern_Entrance_Sapphire"
     None
     (Some (mkMons 4 [mkMon 5 35 SPECIES_TENTACOOL; mkMon 5 35 SPECIES_ZUBAT; mkMon 30 35 SPECIES_ZUBAT; mkMon 30 35 SPECIES_GOLBAT; mkMon 30 35 SPECIES_GOLBAT]))
     None
     (Some (mkMons 10 [mkMon 5 10 SPECIES_MAGIKARP; mkMon 5 10 SPECIES_TENTACOOL; mkMon 10 30 SPECIES_MAGIKARP; mkMon 10 30 SPECIES_TENTACOOL; mkMon 10 30 SPECIES_WAILMER; mkMon 25 30 SPECIES_WAILMER; mkMon 30 35 SPECIES_WAILMER; mkMon 20 25 SPECIES_WAILMER; mkMon 35 40 SPECIES_WAILMER; mkMon 40 45 SPECIES_WAILMER]));
   mkEnc "MAP_SEAFLOOR_CAVERN_ROOM1" "SeafloorCavern_Room1_Sapphire"
     (Some (mkMons 4 [mkMon 30 30 SPECIES_ZUBAT; mkMon 31 31 SPECIES_ZUBAT; mkMon 32 32 SPECIES_ZUBAT; mkMon 33 33 SPECIES_ZUBAT; mkMon 28 28 SPECIES_ZUBAT; mkMon 29 29 SPECIES_ZUBAT; mkMon 34 34 SPECIES_ZUBAT; mkMon 35 35 SPECIES_ZUBAT; mkMon 34 34 SPECIES_GOLBAT; mkMon 35 35 SPECIES_GOLBAT; mkMon 33 33 SPECIES_GOLBAT; mkMon 36 36 SPECIES_GOLBAT]))
     None
     None
     None;
   mkEnc "MAP_SEAFLOOR_CAVERN_ROOM2" "SeafloorCavern_Room2_Sapphire"
     (Some (mkMons 4 [mkMon 30 30 SPECIES_ZUBAT; mkMon 31 31 SPECIES_ZUBAT; mkMon 32 32 SPECIES_ZUBAT; mkMon 33 33 SPECIES_ZUBAT; mkMon 28 28 SPECIES_ZUBAT; mkMon 29 29 SPECIES_ZUBAT; mkMon 34 34 SPECIES_ZUBAT; mkMon 35 35 SPECIES_ZUBAT; mkMon 34 34 SPECIES_GOLBAT; mkMon 35 35 SPECIES_GOLBAT; mkMon 33 33 SPECIES_GOLBAT; mkMon 36 36 SPECIES_GOLBAT]))
     None
     None
     None;
   mkEnc "MAP_SEAFLOOR_CAVERN_ROOM3" "SeafloorCavern_Room3_Sapphire"
     (Some (mkMons 4 [mkMon 30 30 SPECIES_ZUBAT; mkMon 31 31 SPECIES_ZUBAT; mkMon 32 32 SPECIES_ZUBAT; mkMon 33 33 SPECIES_ZUBAT; mkMon 28 28 SPECIES_ZUBAT; mkMon 29 29 SPECIES_ZUBAT; mkMon 34 34 SPECIES_ZUBAT; mkMon 35 35 SPECIES_ZUBAT; mkMon 34 34 SPECIES_GOLBAT; mkMon 35 35 SPECIES_GOLBAT; mkMon 33 33 SPECIES_GOLBAT; mkMon 36 36 SPECIES_GOLBAT]))
     None
     None
     None;
   mkEnc "MAP_SEAFLOOR_CAVERN_ROOM4" "SeafloorCavern_Room4_Sapphire"
     (Some (mkMons 4 [mkMon 30 30 SPECIES_ZUBAT; mkMon 31 31 SPECIES_ZUBAT; mkMon 32 32 SPECIES_ZUBAT; mkMon 33 33 SPECIES_ZUBAT; mkMon 28 28 SPECIES_ZUBAT; mkMon 29 29 SPECIES_ZUBAT; mkMon 34 34 SPECIES_ZUBAT; mkMon 35 35 SPECIES_ZUBAT; mkMon 34 34 SPECIES_GOLBAT; mkMon 35 35 SPECIES_GOLBAT; mkMon 33 33 SPECIES_GOLBAT; mkMon 36 36 SPECIES_GOLBAT]))
     None
     None
     None;
   mkEnc "MAP_SEAFLOOR_CAVERN_ROOM5" "SeafloorCavern_Room5_Sapphire"
     (Some (mkMons 4 [mkMon 30 30 SPECIES_ZUBAT; mkMon 31 31 SPECIES_ZUBAT; mkMon 32 32 SPECIES_ZUBAT; mkMon 33 33 SPECIES_ZUBAT; mkMon 28 28 SPECIES_ZUBAT; mkMon 29 29 SPECIES_ZUBAT; mkMon 34 34 SPECIES_ZUBAT; mkMon 35 35 SPECIES_ZUBAT; mkMon 34 34 SPECIES_GOLBAT; mkMon 35 35 SPECIES_GOLBAT; mkMon 33 33 SPECIES_GOLBAT; mkMon 36 36 SPECIES_GOLBAT]))
     None
     None
     None;
   mkEnc "MAP_SEAFLOOR_CAVERN_ROOM6" "SeafloorCavern_Room6_Sapphire"
     (Some (mkMons 4 [mkMon 30 30 SPECIES_ZUBAT; mkMon 31 31 SPECIES_ZUBAT; mkMon 32 32 SPECIES_ZUBAT; mkMon 33 33 SPECIES_ZUBAT; mkMon 28 28 SPECIES_ZUBAT; mkMon 29 29 SPECIES_ZUBAT; mkMon 34 34 SPECIES_ZUBAT; mkMon 35 35 SPECIES_ZUBAT; mkMon 34 34 SPECIES_GOLBAT; mkMon 35 35 SPECIES_GOLBAT; mkMon 33 33 SPECIES_GOLBAT; mkMon 36 36 SPECIES_GOLBAT]))
     (Some (mkMons 4 [mkMon 5 35 SPECIES_TENTACOOL; mkMon 5 35 SPECIES_ZUBAT; mkMon 30 35 SPECIES_ZUBAT; mkMon 30 35 SPECIES_GOLBAT; mkMon 30 35 SPECIES_GOLBAT]))
     None
     (Some (mkMons 10 [mkMon 5 10 SPECIES_MAGIKARP; mkMon 5 10 SPECIES_TENTACOOL; mkMon 10 30 SPECIES_MAGIKARP; mkMon 10 30 SPECIES_TENTACOOL; mkMon 10 30 SPECIES_WAILMER; mkMon 25 30 SPECIES_WAILMER; mkMon 30 35 SPECIES_WAILMER; mkMon 20 25 SPECIES_WAILMER; mkMon 35 40 SPECIES_WAILMER; mkMon 40 45 SPECIES_WAILMER]));
   mkEnc "MAP_SEAFLOOR_CAVERN_ROOM7" "SeafloorCavern_Room7_Sapphire"
     (Some (mkMons 4 [mkMon 30 30 SPECIES_ZUBAT; mkMon 31 31 SPECIES_ZUBAT; mkMon 32 32 SPECIES_ZUBAT; mkMon 33 33 SPECIES_ZUBAT; mkMon 28 28 SPECIES_ZUBAT; mkMon 29 29 SPECIES_ZUBAT; mkMon 34 34 SPECIES_ZUBAT; mkMon 35 35 SPECIES_ZUBAT; mkMon 34 34 SPECIES_GOLBAT; mkMon 35 35 SPECIES_GOLBAT; mkMon 33 33 SPECIES_GOLBAT; mkMon 36 36 SPECIES_GOLBAT]))
     (Some (mkMons 4 [mkMon 5 35 SPECIES_TENTACOOL; mkMon 5 35 SPECIES_ZUBAT; mkMon 30 35 SPECIES_ZUBAT; mkMon 30 35 SPECIES_GOLBAT; mkMon 30 35 SPECIES_GOLBAT]))
     None
     (Some (mkMons 10 [mkMon 5 10 SPECIES_MAGIKARP; mkMon 5 10 SPECIES_TENTACOOL; mkMon 10 30 SPECIES_MAGIKARP; mkMon 10 30 SPECIES_TENTACOOL; mkMon 10 30 SPECIES_WAILMER; mkMon 25 30 SPECIES_WAILMER; mkMon 30 35 SPECIES_WAILMER; mkMon 20 25 SPECIES_WAILMER; mkMon 35 40 SPECIES_WAILMER; mkMon 40 45 SPECIES_WAILMER]));
   mkEnc "MAP_SEAFLOOR_CAVERN_ROOM8" "SeafloorCavern_Room8_Sapphire"
     (Some (mkMons 4 [mkMon 30 30 SPECIES_ZUBAT; mkMon 31 31 SPECIES_ZUBAT; mkMon 32 32 SPECIES_ZUBAT; mkMon 33 33 SPECIES_ZUBAT; mkMon 28 28 SPECIES_ZUBAT; mkMon 29 29 SPECIES_ZUBAT; mkMon 34 34 SPECIES_ZUBAT; mkMon 35 35 SPECIES_ZUBAT; mkMon 34 34 SPECIES_GOLBAT; mkMon 35 35 SPECIES_GOLBAT; mkMon 33 33 SPECIES_GOLBAT; mkMon 36 36 SPECIES_GOLBAT]))
     None
     None
     None;
   mkEnc "MAP_CAVE_OF_ORIGIN_ENTRANCE" "CaveOfOrigin_Entrance_Sapphire"
     (Some (mkMons 4 [mkMon 30 30 SPECIES_ZUBAT; mkMon 31 31 SPECIES_ZUBAT; mkMon 32 32 SPECIES_ZUBAT; mkMon 33 33 SPECIES_ZUBAT; mkMon 28 28 SPECIES_ZUBAT; mkMon 29 29 SPECIES_ZUBAT; mkMon 34 34 SPECIES_ZUBAT; mkMon 35 35 SPECIES_ZUBAT; mkMon 34 34 SPECIES_GOLBAT; mkMon 35 35 SPECIES_GOLBAT; mkMon 33 33 SPECIES_GOLBAT; mkMon 36 36 SPECIES_GOLBAT]))
     None
     None
     None;
   mkEnc "MAP_CAVE_OF_ORIGIN_1F" "CaveOfOrigin_1F_Sapphire"
     (Some (mkMons 4 [mkMon 30 30 SPECIES_ZUBAT; mkMon 31 31 SPECIES_ZUBAT; mkMon 32 32 SPECIES_ZUBAT; mkMon 30 30 SPECIES_SABLEYE; mkMon 32 32 SPECIES_SABLEYE; mkMon 34 34 SPECIES_SABLEYE; mkMon 33 33 SPECIES_ZUBAT; mkMon 34 34 SPECIES_ZUBAT; mkMon 34 34 SPECIES_GOLBAT; mkMon 35 35 SPECIES_GOLBAT; mkMon 33 33 SPECIES_GOLBAT; mkMon 36 36 SPECIES_GOLBAT]))
     None
     None
     None;
   mkEnc "MAP_CAVE_OF_ORIGIN_B1F" "CaveOfOrigin_B1F_Sapphire"
     (Some (mkMons 4 [mkMon 30 30 SPECIES_ZUBAT; mkMon 31 31 SPECIES_ZUBAT; mkMon 32 32 SPECIES_ZUBAT; mkMon 30 30 SPECIES_SABLEYE; mkMon 32 32 SPECIES_SABLEYE; mkMon 34 34 SPECIES_SABLEYE; mkMon 33 33 SPECIES_ZUBAT; mkMon 34 34 SPECIES_ZUBAT; mkMon 34 34 SPECIES_GOLBAT; mkMon 35 35 SPECIES_GOLBAT; mkMon 33 33 SPECIES_GOLBAT; mkMon 36 36 SPECIES_GOLBAT]))
     None
     None
     None;
   mkEnc "MAP_CAVE_OF_ORIGIN_B2F" "CaveOfOrigin_B2F_Sapphire"
     (Some (mkMons 4 [mkMon 30 30 SPECIES_ZUBAT; mkMon 31 31 SPECIES_ZUBAT; mkMon 32 32 SPECIES_ZUBAT; mkMon 30 30 SPECIES_SABLEYE; mkMon 32 32 SPECIES_SABLEYE; mkMon 34 34 SPECIES_SABLEYE; mkMon 33 33 SPECIES_ZUBAT; mkMon 34 34 SPECIES_ZUBAT; mkMon 34 34 SPECIES_GOLBAT; mkMon 35 35 SPECIES_GOLBAT; mkMon 33 33 SPECIES_GOLBAT; mkMon 36 36 SPECIES_GOLBAT]))
     None
     None
     None;
   mkEnc "MAP_CAVE_OF_ORIGIN_B3F" "CaveOfOrigin_B3F_Sapphire"
     (Some (mkMons 4 [mkMon 30 30 SPECIES_ZUBAT; mkMon 31 31 SPECIES_ZUBAT; mkMon 32 32 SPECIES_ZUBAT; mkMon 30 30 SPECIES_SABLEYE; mkMon 32 32 SPECIES_SABLEYE; mkMon 34 34 SPECIES_SABLEYE; mkMon 33 33 SPECIES_ZUBAT; mkMon 34 34 SPECIES_ZUBAT; mkMon 34 34 SPECIES_GOLBAT; mkMon 35 35 SPECIES_GOLBAT; mkMon 33 33 SPECIES_GOLBAT; mkMon 36 36 SPECIES_GOLBAT]))
     None
     None
     None;
   mkEnc "MAP_VICTORY_ROAD_1F" "VictoryRoad_1F_Sapphire"
     (Some (mkMons 10 [mkMon 40 40 SPECIES_GOLBAT; mkMon 40 40 SPECIES_HARIYAMA; mkMon 40 40 SPECIES_LAIRON; mkMon 40 40 SPECIES_LOUDRED; mkMon 36 36 SPECIES_ZUBAT; mkMon 36 36 SPECIES_MAKUHITA; mkMon 38 38 SPECIES_GOLBAT; mkMon 38 38 SPECIES_HARIYAMA; mkMon 36 36 SPECIES_ARON; mkMon 36 36 SPECIES_WHISMUR; mkMon 36 36 SPECIES_ARON; mkMon 36 36 SPECIES_WHISMUR]))
     None
     None
     None;
   mkEnc "MAP_VICTORY_ROAD_B1F" "VictoryRoad_B1F_Sapphire"
     (Some (mkMons 10 [mkMon 40 40 SPECIES_GOLBAT; mkMon 40 40 SPECIES_HARIYAMA; mkMon 40 40 SPECIES_LAIRON; mkMon 40 40 SPECIES_MEDICHAM; mkMon 38 38 SPECIES_GOLBAT; mkMon 38 38 SPECIES_HARIYAMA; mkMon 42 42 SPECIES_GOLBAT; mkMon 42 42 SPECIES_HARIYAMA; mkMon 42 42 SPECIES_LAIRON; mkMon 38 38 SPECIES_MEDITITE; mkMon 42 42 SPECIES_LAIRON; mkMon 38 38 SPECIES_MEDITITE]))
     None
     (Some (mkMons 20 [mkMon 30 40 SPECIES_GRAVELER; mkMon 30 40 SPECIES_GEODUDE; mkMon 35 40 SPECIES_GRAVELER; mkMon 35 40 SPECIES_GRAVELER; mkMon 35 40 SPECIES_GRAVELER]))
     None;
   mkEnc "MAP_VICTORY_ROAD_B2F" "VictoryRoad_B2F_Sapphire"
     (Some (mkMons 10 [mkMon 40 40 SPECIES_GOLBAT; mkMon 40 40 SPECIES_SABLEYE; mkMon 40 40 SPECIES_LAIRON; mkMon 40 40 SPECIES_MEDICHAM; mkMon 42 42 SPECIES_GOLBAT; mkMon 42 42 SPECIES_SABLEYE; mkMon 44 44 SPECIES_GOLBAT; mkMon 44 44 SPECIES_SABLEYE; mkMon 42 42 SPECIES_LAIRON; mkMon 42 42 SPECIES_MEDICHAM; mkMon 44 44 SPECIES_LAIRON; mkMon 44 44 SPECIES_MEDICHAM]))
     (Some (mkMons 4 [mkMon 30 35 SPECIES_GOLBAT; mkMon 25 30 SPECIES_GOLBAT; mkMon 35 40 SPECIES_GOLBAT; mkMon 35 40 SPECIES_GOLBAT; mkMon 35 40 SPECIES_GOLBAT]))
     None
     (Some (mkMons 30 [mkMon 5 10 SPECIES_MAGIKARP; mkMon 5 10 SPECIES_GOLDEEN; mkMon 10 30 SPECIES_MAGIKARP; mkMon 10 30 SPECIES_GOLDEEN; mkMon 10 30 SPECIES_BARBOACH; mkMon 25 30 SPECIES_BARBOACH; mkMon 30 35 SPECIES_BARBOACH; mkMon 30 35 SPECIES_WHISCASH; mkMon 35 40 SPECIES_WHISCASH; mkMon 40 45 SPECIES_WHISCASH]));
   mkEnc "MAP_SHOAL_CAVE_LOW_TIDE_ENTRANCE_ROOM" "ShoalCave_LowTideEntranceRoom_Sapphire"
     (Some (mkMons 10 [mkMon 26 26 SPECIES_ZUBAT; mkMon 26 26 SPECIES_SPHEAL; mkMon 28 28 SPECIES_ZUBAT; mkMon 28 28 SPECIES_SPHEAL; mkMon 30 30 SPECIES_ZUBAT; mkMon 30 30 SPECIES_SPHEAL; mkMon 32 32 SPECIES_ZUBAT; mkMon 32 32 SPECIES_SPHEAL; mkMon 32 32 SPECIES_GOLBAT; mkMon 32 32 SPECIES_SPHEAL; mkMon 32 32 SPECIES_GOLBAT; mkMon 32 32 SPECIES_SPHEAL]))
     (Some (mkMons 4 [mkMon 5 35 SPECIES_TENTACOOL; mkMon 5 35 SPECIES_ZUBAT; mkMon 25 30 SPECIES_SPHEAL; mkMon 25 30 SPECIES_SPHEAL; mkMon 25 35 SPECIES_SPHEAL]))
     None
     (Some (mkMons 10 [mkMon 5 10 SPECIES_MAGIKARP; mkMon 5 10 SPECIES_TENTACOOL; mkMon 10 30 SPECIES_MAGIKARP; mkMon 10 30 SPECIES_TENTACOOL; mkMon 10 30 SPECIES_WAILMER; mkMon 25 30 SPECIES_WAILMER; mkMon 30 35 SPECIES_WAILMER; mkMon 20 25 SPECIES_WAILMER; mkMon 35 40 SPECIES_WAILMER; mkMon 40 45 SPECIES_WAILMER]));
   mkEnc "MAP_SHOAL_CAVE_LOW_TIDE_INNER_ROOM" "ShoalCave_LowTideInnerRoom_Sapphire"
     (Some (mkMons 10 [mkMon 26 26 SPECIES_ZUBAT; mkMon 26 26 SPECIES_SPHEAL; mkMon 28 28 SPECIES_ZUBAT; mkMon 28 28 SPECIES_SPHEAL; mkMon 30 30 SPECIES_ZUBAT; mkMon 30 30 SPECIES_SPHEAL; mkMon 32 32 SPECIES_ZUBAT; mkMon 32 32 SPECIES_SPHEAL; mkMon 32 32 SPECIES_GOLBAT; mkMon 32 32 SPECIES_SPHEAL; mkMon 32 32 SPECIES_GOLBAT; mkMon 32 32 SPECIES_SPHEAL]))
     (Some (mkMons 4 [mkMon 5 35 SPECIES_TENTACOOL; mkMon 5 35 SPECIES_ZUBAT; mkMon 25 30 SPECIES_SPHEAL; mkMon 25 30 SPECIES_SPHEAL; mkMon 25 35 SPECIES_SPHEAL]))
     None
     (Some (mkMons 10 [mkMon 5 10 SPECIES_MAGIKARP; mkMon 5 10 SPECIES_TENTACOOL; mkMon 10 30 SPECIES_MAGIKARP; mkMon 10 30 SPECIES_TENTACOOL; mkMon 10 30 SPECIES_WAILMER; mkMon 25 30 SPECIES_WAILMER; mkMon 30 35 SPECIES_WAILMER; mkMon 20 25 SPECIES_WAILMER; mkMon 35 40 SPECIES_WAILMER; mkMon 40 45 SPECIES_WAILMER]));
   mkEnc "MAP_SHOAL_CAVE_LOW_TIDE_STAIRS_ROOM" "ShoalCave_LowTideStairsRoom_Sapphire"
     (Some (mkMons 10 [mkMon 26 26 SPECIES_ZUBAT; mkMon 26 26 SPECIES_SPHEAL; mkMon 28 28 SPECIES_ZUBAT; mkMon 28 28 SPECIES_SPHEAL; mkMon 30 30 SPECIES_ZUBAT; mkMon 30 30 SPECIES_SPHEAL; mkMon 32 32 SPECIES_ZUBAT; mkMon 32 32 SPECIES_SPHEAL; mkMon 32 32 SPECIES_GOLBAT; mkMon 32 32 SPECIES_SPHEAL; mkMon 32 32 SPECIES_GOLBAT; mkMon 32 32 SPECIES_SPHEAL]))
     None
     None
     None;
   mkEnc "MAP_SHOAL_CAVE_LOW_TIDE_LOWER_ROOM" "ShoalCave_LowTideLowerRoom_Sapphire"
     (Some (mkMons 10 [mkMon 26 26 SPECIES_ZUBAT; mkMon 26 26 SPECIES_SPHEAL; mkMon 28 28 SPECIES_ZUBAT; mkMon 28 28 SPECIES_SPHEAL; mkMon 30 30 SPECIES_ZUBAT; mkMon 30 30 SPECIES_SPHEAL; mkMon 32 32 SPECIES_ZUBAT; mkMon 32 32 SPECIES_SPHEAL; mkMon 32 32 SPECIES_GOLBAT; mkMon 32 32 SPECIES_SPHEAL; mkMon 32 32 SPECIES_GOLBAT; mkMon 32 32 SPECIES_SPHEAL]))
     None
     None
     None;
   mkEnc "MAP_SHOAL_CAVE_LOW_TIDE_ICE_ROOM" "ShoalCave_LowTideIceRoom_Sapphire"
     (Some (mkMons 10 [mkMon 26 26 SPECIES_ZUBAT; mkMon 26 26 SPECIES_SPHEAL; mkMon 28 28 SPECIES_ZUBAT; mkMon 28 28 SPECIES_SPHEAL; mkMon 30 30 SPECIES_ZUBAT; mkMon 30 30 SPECIES_SPHEAL; mkMon 26 26 SPECIES_SNORUNT; mkMon 32 32 SPECIES_SPHEAL; mkMon 30 30 SPECIES_GOLBAT; mkMon 28 28 SPECIES_SNORUNT; mkMon 32 32 SPECIES_GOLBAT; mkMon 30 30 SPECIES_SNORUNT]))
     None
     None
     None;
   mkEnc "MAP_NEW_MAUVILLE_ENTRANCE" "NewMauville_Entrance_Sapphire"
     (Some (mkMons 10 [mkMon 24 24 SPECIES_VOLTORB; mkMon 24 24 SPECIES_MAGNEMITE; mkMon 25 25 SPECIES_VOLTORB; mkMon 25 25 SPECIES_MAGNEMITE; mkMon 23 23 SPECIES_VOLTORB; mkMon 23 23 SPECIES_MAGNEMITE; mkMon 26 26 SPECIES_VOLTORB; mkMon 26 26 SPECIES_MAGNEMITE; mkMon 22 22 SPECIES_VOLTORB; mkMon 22 22 SPECIES_MAGNEMITE; mkMon 22 22 SPECIES_VOLTORB; mkMon 22 22 SPECIES_MAGNEMITE]))
     None
     None
     None;
   mkEnc "MAP_NEW_MAUVILLE_INSIDE" "NewMauville_Inside_Sapphire"
     (Some (mkMons 10 [mkMon 24 24 SPECIES_VOLTORB; mkMon 24 24 SPECIES_MAGNEMITE; mkMon 25 25 SPECIES_VOLTORB; mkMon 25 25 SPECIES_MAGNEMITE; mkMon 23 23 SPECIES_VOLTORB; mkMon 23 23 SPECIES_MAGNEMITE; mkMon 26 26 SPECIES_VOLTORB; mkMon 26 26 SPECIES_MAGNEMITE; mkMon 22 22 SPECIES_VOLTORB; mkMon 22 22 SPECIES_MAGNEMITE; mkMon 26 26 SPECIES_ELECTRODE; mkMon 26 26 SPECIES_MAGNETON]))
     None
     None
     None;
   mkEnc "MAP_ABANDONED_SHIP_ROOMS_B1F" "AbandonedShip_Rooms_B1F_Sapphire"
     None
     (Some (mkMons 4 [mkMon 5 35 SPECIES_TENTACOOL; mkMon 5 35 SPECIES_TENTACOOL; mkMon 5 35 SPECIES_TENTACOOL; mkMon 5 35 SPECIES_TENTACOOL; mkMon 30 35 SPECIES_TENTACRUEL]))
     None
     (Some (mkMons 20 [mkMon 5 10 SPECIES_MAGIKARP; mkMon 5 10 SPECIES_TENTACOOL; mkMon 10 30 SPECIES_MAGIKARP; mkMon 10 30 SPECIES_TENTACOOL; mkMon 10 30 SPECIES_TENTACOOL; mkMon 25 30 SPECIES_TENTACOOL; mkMon 30 35 SPECIES_TENTACOOL; mkMon 30 35 SPECIES_TENTACRUEL; mkMon 25 30 SPECIES_TENTACRUEL; mkMon 20 25 SPECIES_TENTACRUEL]));
   mkEnc "MAP_ABANDONED_SHIP_HIDDEN_FLOOR_CORRIDORS" "AbandonedShip_HiddenFloorCorridors_Sapphire"
     None
     (Some (mkMons 4 [mkMon 5 35 SPECIES_TENTACOOL; mkMon 5 35 SPECIES_TENTACOOL; mkMon 5 35 SPECIES_TENTACOOL; mkMon 5 35 SPECIES_TENTACOOL; mkMon 30 35 SPECIES_TENTACRUEL]))
     None
     (Some (mkMons 20 [mkMon 5 10 SPECIES_MAGIKARP; mkMon 5 10 SPECIES_TENTACOOL; mkMon 10 30 SPECIES_MAGIKARP; mkMon 10 30 SPECIES_TENTACOOL; mkMon 10 30 SPECIES_TENTACOOL; mkMon 25 30 SPECIES_TENTACOOL; mkMon 30 35 SPECIES_TENTACOOL; mkMon 30 35 SPECIES_TENTACRUEL; mkMon 25 30 SPECIES_TENTACRUEL; mkMon 20 25 SPECIES_TENTACRUEL]));
   mkEnc "MAP_SKY_PILLAR_1F" "SkyPillar_1F_Sapphire"
     (Some (mkMons 10 [mkMon 48 48 SPECIES_SABLEYE; mkMon 48 48 SPECIES_GOLBAT; mkMon 50 50 SPECIES_GOLBAT; mkMon 50 50 SPECIES_SABLEYE; mkMon 48 48 SPECIES_CLAYDOL; mkMon 48 48 SPECIES_BANETTE; mkMon 50 50 SPECIES_BANETTE; mkMon 49 49 SPECIES_CLAYDOL; mkMon 47 47 SPECIES_CLAYDOL; mkMon 50 50 SPECIES_CLAYDOL; mkMon 47 47 SPECIES_CLAYDOL; mkMon 50 50 SPECIES_CLAYDOL]))
     None
     None
     None;
   mkEnc "MAP_SKY_PILLAR_3F" "SkyPillar_3F_Sapphire"
     (Some (mkMons 10 [mkMon 51 51 SPECIES_SABLEYE; mkMon 51 51 SPECIES_GOLBAT; mkMon 53 53 SPECIES_GOLBAT; mkMon 53 53 SPECIES_SABLEYE; mkMon 51 51 SPECIES_CLAYDOL; mkMon 51 51 SPECIES_BANETTE; mkMon 53 53 SPECIES_BANETTE; mkMon 52 52 SPECIES_CLAYDOL; mkMon 50 50 SPECIES_CLAYDOL; mkMon 53 53 SPECIES_CLAYDOL; mkMon 50 50 SPECIES_CLAYDOL; mkMon 53 53 SPECIES_CLAYDOL]))
     None
     None
     None;
   mkEnc "MAP_SKY_PILLAR_5F" "SkyPillar_5F_Sapphire"
     (Some (mkMons 10 [mkMon 54 54 SPECIES_SABLEYE; mkMon 54 54 SPECIES_GOLBAT; mkMon 56 56 SPECIES_GOLBAT; mkMon 56 56 SPECIES_SABLEYE; mkMon 54 54 SPECIES_CLAYDOL; mkMon 54 54 SPECIES_BANETTE; mkMon 56 56 SPECIES_BANETTE; mkMon 55 55 SPECIES_CLAYDOL; mkMon 56 56 SPECIES_CLAYDOL; mkMon 57 57 SPECIES_ALTARIA; mkMon 54 54 SPECIES_ALTARIA; mkMon 60 60 SPECIES_ALTARIA]))
     None
     None
     None;
   mkEnc "MAP_ROUTE101" "Route101_Sapphire"
     (Some (mkMons 20 [mkMon 2 2 SPECIES_WURMPLE; mkMon 2 2 SPECIES_ZIGZAGOON; mkMon 2 2 SPECIES_WURMPLE; mkMon 3 3 SPECIES_WURMPLE; mkMon 3 3 SPECIES_ZIGZAGOON; mkMon 3 3 SPECIES_ZIGZAGOON; mkMon 3 3 SPECIES_WURMPLE; mkMon 3 3 SPECIES_ZIGZAGOON; mkMon 2 2 SPECIES_POOCHYENA; mkMon 2 2 SPECIES_POOCHYENA; mkMon 3 3 SPECIES_POOCHYENA; mkMon 3 3 SPECIES_POOCHYENA]))
     None
     None
     None;
   mkEnc "MAP_ROUTE102" "Route102_Sapphire"
     (Some (mkMons 20 [mkMon 3 3 SPECIES_ZIGZAGOON; mkMon 3 3 SPECIES_WURMPLE; mkMon 4 4 SPECIES_ZIGZAGOON; mkMon 4 4 SPECIES_WURMPLE; mkMon 3 3 SPECIES_LOTAD; mkMon 4 4 SPECIES_LOTAD; mkMon 3 3 SPECIES_POOCHYENA; mkMon 3 3 SPECIES_POOCHYENA; mkMon 4 4 SPECIES_POOCHYENA; mkMon 4 4 SPECIES_RALTS; mkMon 4 4 SPECIES_POOCHYENA; mkMon 3 3 SPECIES_SURSKIT]))
     (Some (mkMons 4 [mkMon 20 30 SPECIES_MARILL; mkMon 10 20 SPECIES_MARILL; mkMon 30 35 SPECIES_MARILL; mkMon 5 10 SPECIES_MARILL; mkMon 20 30 SPECIES_SURSKIT]))
     None
     (Some (mkMons 30 [mkMon 5 10 SPECIES_MAGIKARP; mkMon 5 10 SPECIES_GOLDEEN; mkMon 10 30 SPECIES_MAGIKARP; mkMon 10 30 SPECIES_GOLDEEN; mkMon 10 30 SPECIES_CORPHISH; mkMon 25 30 SPECIES_CORPHISH; mkMon 30 35 SPECIES_CORPHISH; mkMon 20 25 SPECIES_CORPHISH; mkMon 35 40 SPECIES_CORPHISH; mkMon 40 45 SPECIES_CORPHISH]));
   mkEnc "MAP_ROUTE103" "Route103_Sapphire"
     (Some (mkMons 20 [mkMon 2 2 SPECIES_ZIGZAGOON; mkMon 3 3 SPECIES_ZIGZAGOON; mkMon 3 3 SPECIES_ZIGZAGOON; mkMon 4 4 SPECIES_ZIGZAGOON; mkMon 2 2 SPECIES_POOCHYENA; mkMon 3 3 SPECIES_POOCHYENA; mkMon 3 3 SPECIES_POOCHYENA; mkMon 4 4 SPECIES_POOCHYENA; mkMon 3 3 SPECIES_WINGULL; mkMon 3 3 SPECIES_WINGULL; mkMon 2 2 SPECIES_WINGULL; mkMon 4 4 SPECIES_WINGULL]))
     (Some (mkMons 4 [mkMon 5 35 SPECIES_TENTACOOL; mkMon 10 30 SPECIES_WINGULL; mkMon 15 25 SPECIES_WINGULL; mkMon 25 30 SPECIES_PELIPPER; mkMon 25 30 SPECIES_PELIPPER]))
     None
     (Some (mkMons 30 [mkMon 5 10 SPECIES_MAGIKARP; mkMon 5 10 SPECIES_TENTACOOL; mkMon 10 30 SPECIES_MAGIKARP; mkMon 10 30 SPECIES_TENTACOOL; mkMon 10 30 SPECIES_WAILMER; mkMon 30 35 SPECIES_SHARPEDO; mkMon 30 35 SPECIES_WAILMER; mkMon 25 30 SPECIES_WAILMER; mkMon 35 40 SPECIES_WAILMER; mkMon 40 45 SPECIES_WAILMER]));
   mkEnc "MAP_ROUTE104" "Route104_Sapphire"
     (Some (mkMons 20 [mkMon 4 4 SPECIES_ZIGZAGOON; mkMon 4 4 SPECIES_WURMPLE; mkMon 5 5 SPECIES_ZIGZAGOON; mkMon 5 5 SPECIES_WURMPLE; mkMon 4 4 SPECIES_ZIGZAGOON; mkMon 5 5 SPECIES_ZIGZAGOON; mkMon 4 4 SPECIES_TAILLOW; mkMon 5 5 SPECIES_TAILLOW; mkMon 4 4 SPECIES_WINGULL; mkMon 4 4 SPECIES_WINGULL; mkMon 3 3 SPECIES_WINGULL; mkMon 5 5 SPECIES_WINGULL]))
     (Some (mkMons 4 [mkMon 10 30 SPECIES_WINGULL; mkMon 15 25 SPECIES_WINGULL; mkMon 15 25 SPECIES_WINGULL; mkMon 25 30 SPECIES_PELIPPER; mkMon 25 30 SPECIES_PELIPPER]))
     None
     (Some (mkMons 30 [mkMon 5 10 SPECIES_MAGIKARP; mkMon 5 10 SPECIES_MAGIKARP; mkMon 10 30 SPECIES_MAGIKARP; mkMon 10 30 SPECIES_MAGIKARP; mkMon 10 30 SPECIES_MAGIKARP; mkMon 25 30 SPECIES_MAGIKARP; mkMon 30 35 SPECIES_MAGIKARP; mkMon 20 25 SPECIES_MAGIKARP; mkMon 35 40 SPECIES_MAGIKARP; mkMon 40 45 SPECIES_MAGIKARP]));
   mkEnc "MAP_ROUTE105" "Route105_Sapphire"
     None
     (Some (mkMons 4 [mkMon 5 35 SPECIES_TENTACOOL; mkMon 10 30 SPECIES_WINGULL; mkMon 15 25 SPECIES_WINGULL; mkMon 25 30 SPECIES_PELIPPER; mkMon 25 30 SPECIES_PELIPPER]))
     None
     (Some (mkMons 30 [mkMon 5 10 SPECIES_MAGIKARP; mkMon 5 10 SPECIES_TENTACOOL; mkMon 10 30 SPECIES_MAGIKARP; mkMon 10 30 SPECIES_TENTACOOL; mkMon 10 30 SPECIES_WAILMER; mkMon 25 30 SPECIES_WAILMER; mkMon 30 35 SPECIES_WAILMER; mkMon 20 25 SPECIES_WAILMER; mkMon 35 40 SPECIES_WAILMER; mkMon 40 45 SPECIES_WAILMER]));
   mkEnc "MAP_ROUTE106" "Route106_Sapphire"
     None
     (Some (mkMons 4 [mkMon 5 35 SPECIES_TENTACOOL; mkMon 10 30 SPECIES_WINGULL; mkMon 15 25 SPECIES_WINGULL; mkMon 25 30 SPECIES_PELIPPER; mkMon 25 30 SPECIES_PELIPPER]))
     None
     (Some (mkMons 30 [mkMon 5 10 SPECIES_MAGIKARP; mkMon 5 10 SPECIES_TENTACOOL; mkMon 10 30 SPECIES_MAGIKARP; mkMon 10 30 SPECIES_TENTACOOL; mkMon 10 30 SPECIES_WAILMER; mkMon 25 30 SPECIES_WAILMER; mkMon 30 35 SPECIES_WAILMER; mkMon 20 25 SPECIES_WAILMER; mkMon 35 40 SPECIES_WAILMER; mkMon 40 45 SPECIES_WAILMER]));
   mkEnc "MAP_ROUTE107" "Route107_Sapphire"
     None
     (Some (mkMons 4 [mkMon 5 35 SPECIES_TENTACOOL; mkMon 10 30 SPECIES_WINGULL; mkMon 15 25 SPECIES_WINGULL; mkMon 25 30 SPECIES_PELIPPER; mkMon 25 30 SPECIES_PELIPPER]))
     None
     (Some (mkMons 30 [mkMon 5 10 SPECIES_MAGIKARP; mkMon 5 10 SPECIES_TENTACOOL; mkMon 10 30 SPECIES_MAGIKARP; mkMon 10 30 SPECIES_TENTACOOL; mkMon 10 30 SPECIES_WAILMER; mkMon 25 30 SPECIES_WAILMER; mkMon 30 35 SPECIES_WAILMER; mkMon 20 25 SPECIES_WAILMER; mkMon 35 40 SPECIES_WAILMER; mkMon 40 45 SPECIES_WAILMER]));
   mkEnc "MAP_ROUTE108" "Route108_Sapphire"
     None
     (Some (mkMons 4 [mkMon 5 35 SPECIES_TENTACOOL; mkMon 10 30 SPECIES_WINGULL; mkMon 15 25 SPECIES_WINGULL; mkMon 25 30 SPECIES_PELIPPER; mkMon 25 30 SPECIES_PELIPPER]))
     None
     (Some (mkMons 30 [mkMon 5 10 SPECIES_MAGIKARP; mkMon 5 10 SPECIES_TENTACOOL; mkMon 10 30 SPECIES_MAGIKARP; mkMon 10 30 SPECIES_TENTACOOL; mkMon 10 30 SPECIES_WAILMER; mkMon 25 30 SPECIES_WAILMER; mkMon 30 35 SPECIES_WAILMER; mkMon 20 25 SPECIES_WAILMER; mkMon 35 40 SPECIES_WAILMER; mkMon 40 45 SPECIES_WAILMER]));
   mkEnc "MAP_ROUTE109" "Route109_Sapphire"
     None
     (Some (mkMons 4 [mkMon 5 35 SPECIES_TENTACOOL; mkMon 10 30 SPECIES_WINGULL; mkMon 15 25 SPECIES_WINGULL; mkMon 25 30 SPECIES_PELIPPER; mkMon 25 30 SPECIES_PELIPPER]))
     None
     (Some (mkMons 30 [mkMon 5 10 SPECIES_MAGIKARP; mkMon 5 10 SPECIES_TENTACOOL; mkMon 10 30 SPECIES_MAGIKARP; mkMon 10 30 SPECIES_TENTACOOL; mkMon 10 30 SPECIES_WAILMER; mkMon 25 30 SPECIES_WAILMER; mkMon 30 35 SPECIES_WAILMER; mkMon 20 25 SPECIES_WAILMER; mkMon 35 40 SPECIES_WAILMER; mkMon 40 45 SPECIES_WAILMER]));
   mkEnc "MAP_ROUTE110" "Route110_Sapphire"
     (Some (mkMons 20 [mkMon 12 12 SPECIES_ZIGZAGOON; mkMon 12 12 SPECIES_ELECTRIKE; mkMon 12 12 SPECIES_GULPIN; mkMon 13 13 SPECIES_ELECTRIKE; mkMon 13 13 SPECIES_PLUSLE; mkMon 13 13 SPECIES_ODDISH; mkMon 13 13 SPECIES_PLUSLE; mkMon 13 13 SPECIES_GULPIN; mkMon 12 12 SPECIES_WINGULL; mkMon 12 12 SPECIES_WINGULL; mkMon 12 12 SPECIES_MINUN; mkMon 13 13 SPECIES_MINUN]))
     (Some (mkMons 4 [mkMon 5 35 SPECIES_TENTACOOL; mkMon 10 30 SPECIES_WINGULL; mkMon 15 25 SPECIES_WINGULL; mkMon 25 30 SPECIES_PELIPPER; mkMon 25 30 SPECIES_PELIPPER]))
     None
     (Some (mkMons 30 [mkMon 5 10 SPECIES_MAGIKARP; mkMon 5 10 SPECIES_TENTACOOL; mkMon 10 30 SPECIES_MAGIKARP; mkMon 10 30 SPECIES_TENTACOOL; mkMon 10 30 SPECIES_WAILMER; mkMon 25 30 SPECIES_WAILMER; mkMon 30 35 SPECIES_WAILMER; mkMon 20 25 SPECIES_WAILMER; mkMon 35 40 SPECIES_WAILMER; mkMon 40 45 SPECIES_WAILMER]));
   mkEnc "MAP_ROUTE111" "Route111_Sapphire"
     (Some (mkMons 10 [mkMon 20 20 SPECIES_SANDSHREW; mkMon 20 20 SPECIES_TRAPINCH; mkMon 21 21 SPECIES_SANDSHREW; mkMon 21 21 SPECIES_TRAPINCH; mkMon 19 19 SPECIES_CACNEA; mkMon 21 21 SPECIES_CACNEA; mkMon 19 19 SPECIES_SANDSHREW; mkMon 19 19 SPECIES_TRAPINCH; mkMon 20 20 SPECIES_BALTOY; mkMon 20 20 SPECIES_BALTOY; mkMon 22 22 SPECIES_BALTOY; mkMon 22 22 SPECIES_BALTOY]))
     (Some (mkMons 4 [mkMon 20 30 SPECIES_MARILL; mkMon 10 20 SPECIES_MARILL; mkMon 30 35 SPECIES_MARILL; mkMon 5 10 SPECIES_MARILL; mkMon 20 30 SPECIES_SURSKIT]))
     (Some (mkMons 20 [mkMon 10 15 SPECIES_GEODUDE; mkMon 5 10 SPECIES_GEODUDE; mkMon 15 20 SPECIES_GEODUDE; mkMon 15 20 SPECIES_GEODUDE; mkMon 15 20 SPECIES_GEODUDE]))
     (Some (mkMons 30 [mkMon 5 10 SPECIES_MAGIKARP; mkMon 5 10 SPECIES_GOLDEEN; mkMon 10 30 SPECIES_MAGIKARP; mkMon 10 30 SPECIES_GOLDEEN; mkMon 10 30 SPECIES_BARBOACH; mkMon 25 30 SPECIES_BARBOACH; mkMon 30 35 SPECIES_BARBOACH; mkMon 20 25 SPECIES_BARBOACH; mkMon 35 40 SPECIES_BARBOACH; mkMon 40 45 SPECIES_BARBOACH]));
   mkEnc "MAP_ROUTE112" "Route112_Sapphire"
     (Some (mkMons 20 [mkMon 15 15 SPECIES_NUMEL; mkMon 15 15 SPECIES_NUMEL; mkMon 15 15 SPECIES_MACHOP; mkMon 14 14 SPECIES_NUMEL; mkMon 14 14 SPECIES_NUMEL; mkMon 14 14 SPECIES_MACHOP; mkMon 16 16 SPECIES_NUMEL; mkMon 16 16 SPECIES_MACHOP; mkMon 16 16 SPECIES_NUMEL; mkMon 16 16 SPECIES_NUMEL; mkMon 16 16 SPECIES_NUMEL; mkMon 16 16 SPECIES_NUMEL]))
     None
     None
     None;
   mkEnc "MAP_ROUTE113" "Route113_Sapphire"
     (Some (mkMons 20 [mkMon 15 15 SPECIES_SPINDA; mkMon 15 15 SPECIES_SPINDA; mkMon 15 15 SPECIES_SANDSHREW; mkMon 14 14 SPECIES_SPINDA; mkMon 14 14 SPECIES_SPINDA; mkMon 14 14 SPECIES_SANDSHREW; mkMon 16 16 SPECIES_SPINDA; mkMon 16 16 SPECIES_SANDSHREW; mkMon 16 16 SPECIES_SPINDA; mkMon 16 16 SPECIES_SKARMORY; mkMon 16 16 SPECIES_SPINDA; mkMon 16 16 SPECIES_SKARMORY]))
     None
     None
     None;
   mkEnc "MAP_ROUTE114" "Route114_Sapphire"
     (Some (mkMons 20 [mkMon 16 16 SPECIES_SWABLU; mkMon 16 16 SPECIES_LOTAD; mkMon 17 17 SPECIES_SWABLU; mkMon 15 15 SPECIES_SWABLU; mkMon 15 15 SPECIES_LOTAD; mkMon 16 16 SPECIES_SEVIPER; mkMon 16 16 SPECIES_LOMBRE; mkMon 18 18 SPECIES_LOMBRE; mkMon 17 17 SPECIES_SEVIPER; mkMon 15 15 SPECIES_SEVIPER; mkMon 17 17 SPECIES_SEVIPER; mkMon 15 15 SPECIES_SURSKIT]))
     (Some (mkMons 4 [mkMon 20 30 SPECIES_MARILL; mkMon 10 20 SPECIES_MARILL; mkMon 30 35 SPECIES_MARILL; mkMon 5 10 SPECIES_MARILL; mkMon 20 30 SPECIES_SURSKIT]))
     (Some (mkMons 20 [mkMon 10 15 SPECIES_GEODUDE; mkMon 5 10 SPECIES_GEODUDE; mkMon 15 20 SPECIES_GEODUDE; mkMon 15 20 SPECIES_GEODUDE; mkMon 15 20 SPECIES_GEODUDE]))
     (Some (mkMons 30 [mkMon 5 10 SPECIES_MAGIKARP; mkMon 5 10 SPECIES_GOLDEEN; mkMon 10 30 SPECIES_MAGIKARP; mkMon 10 30 SPECIES_GOLDEEN; mkMon 10 30 SPECIES_BARBOACH; mkMon 25 30 SPECIES_BARBOACH; mkMon 30 35 SPECIES_BARBOACH; mkMon 20 25 SPECIES_BARBOACH; mkMon 35 40 SPECIES_BARBOACH; mkMon 40 45 SPECIES_BARBOACH]));
   mkEnc "MAP_ROUTE115" "Route115_Sapphire"
     (Some (mkMons 20 [mkMon 23 23 SPECIES_SWABLU; mkMon 23 23 SPECIES_TAILLOW; mkMon 25 25 SPECIES_SWABLU; mkMon 24 24 SPECIES_TAILLOW; mkMon 25 25 SPECIES_TAILLOW; mkMon 25 25 SPECIES_SWELLOW; mkMon 24 24 SPECIES_JIGGLYPUFF; mkMon 25 25 SPECIES_JIGGLYPUFF; mkMon 24 24 SPECIES_WINGULL; mkMon 24 24 SPECIES_WINGULL; mkMon 26 26 SPECIES_WINGULL; mkMon 25 25 SPECIES_WINGULL]))
     (Some (mkMons 4 [mkMon 5 35 SPECIES_TENTACOOL; mkMon 10 30 SPECIES_WINGULL; mkMon 15 25 SPECIES_WINGULL; mkMon 25 30 SPECIES_PELIPPER; mkMon 25 30 SPECIES_PELIPPER]))
     None
     (Some (mkMons 30 [mkMon 5 10 SPECIES_MAGIKARP; mkMon 5 10 SPECIES_TENTACOOL; mkMon 10 30 SPECIES_MAGIKARP; mkMon 10 30 SPECIES_TENTACOOL; mkMon 10 30 SPECIES_WAILMER; mkMon 25 30 SPECIES_WAILMER; mkMon 30 35 SPECIES_WAILMER; mkMon 20 25 SPECIES_WAILMER; mkMon 35 40 SPECIES_WAILMER; mkMon 40 45 SPECIES_WAILMER]));
   mkEnc "MAP_ROUTE116" "Route116_Sapphire"
     (Some (mkMons 20 [mkMon 6 6 SPECIES_ZIGZAGOON; mkMon 6 6 SPECIES_WHISMUR; mkMon 6 6 SPECIES_NINCADA; mkMon 7 7 SPECIES_WHISMUR; mkMon 7 7 SPECIES_NINCADA; mkMon 6 6 SPECIES_TAILLOW; mkMon 7 7 SPECIES_TAILLOW; mkMon 8 8 SPECIES_TAILLOW; mkMon 7 7 SPECIES_ZIGZAGOON; mkMon 8 8 SPECIES_ZIGZAGOON; mkMon 7 7 SPECIES_SKITTY; mkMon 8 8 SPECIES_SKITTY]))
     None
     None
     None;
   mkEnc "MAP_ROUTE117" "Route117_Sapphire"
     (Some (mkMons 20 [mkMon 13 13 SPECIES_ZIGZAGOON; mkMon 13 13 SPECIES_ROSELIA; mkMon 14 14 SPECIES_ZIGZAGOON; mkMon 14 14 SPECIES_ROSELIA; mkMon 13 13 SPECIES_MARILL; mkMon 13 13 SPECIES_ODDISH; mkMon 13 13 SPECIES_VOLBEAT; mkMon 13 13 SPECIES_VOLBEAT; mkMon 14 14 SPECIES_VOLBEAT; mkMon 14 14 SPECIES_VOLBEAT; mkMon 13 13 SPECIES_ILLUMISE; mkMon 13 13 SPECIES_SURSKIT]))
     (Some (mkMons 4 [mkMon 20 30 SPECIES_MARILL; mkMon 10 20 SPECIES_MARILL; mkMon 30 35 SPECIES_MARILL; mkMon 5 10 SPECIES_MARILL; mkMon 20 30 SPECIES_SURSKIT]))
     None
     (Some (mkMons 30 [mkMon 5 10 SPECIES_MAGIKARP; mkMon 5 10 SPECIES_GOLDEEN; mkMon 10 30 SPECIES_MAGIKARP; mkMon 10 30 SPECIES_GOLDEEN; mkMon 10 30 SPECIES_CORPHISH; mkMon 25 30 SPECIES_CORPHISH; mkMon 30 35 SPECIES_CORPHISH; mkMon 20 25 SPECIES_CORPHISH; mkMon 35 40 SPECIES_CORPHISH; mkMon 40 45 SPECIES_CORPHISH]));
   mkEnc "MAP_ROUTE118" "Route118_Sapphire"
     (Some (mkMons 20 [mkMon 24 24 SPECIES_ZIGZAGOON; mkMon 24 24 SPECIES_ELECTRIKE; mkMon 26 26 SPECIES_ZIGZAGOON; mkMon 26 26 SPECIES_ELECTRIKE; mkMon 26 26 SPECIES_LINOONE; mkMon 26 26 SPECIES_MANECTRIC; mkMon 25 25 SPECIES_WINGULL; mkMon 25 25 SPECIES_WINGULL; mkMon 26 26 SPECIES_WINGULL; mkMon 26 26 SPECIES_WINGULL; mkMon 27 27 SPECIES_WINGULL; mkMon 25 25 SPECIES_KECLEON]))
     (Some (mkMons 4 [mkMon 5 35 SPECIES_TENTACOOL; mkMon 10 30 SPECIES_WINGULL; mkMon 15 25 SPECIES_WINGULL; mkMon 25 30 SPECIES_PELIPPER; mkMon 25 30 SPECIES_PELIPPER]))
     None
     (Some (mkMons 30 [mkMon 5 10 SPECIES_MAGIKARP; mkMon 5 10 SPECIES_TENTACOOL; mkMon 10 30 SPECIES_MAGIKARP; mkMon 10 30 SPECIES_TENTACOOL; mkMon 10 30 SPECIES_CARVANHA; mkMon 30 35 SPECIES_SHARPEDO; mkMon 30 35 SPECIES_CARVANHA; mkMon 20 25 SPECIES_CARVANHA; mkMon 35 40 SPECIES_CARVANHA; mkMon 40 45 SPECIES_CARVANHA]));
   mkEnc "MAP_ROUTE119" "Route119_Sapphire"
     (Some (mkMons 15 [mkMon 25 25 SPECIES_ZIGZAGOON; mkMon 25 25 SPECIES_LINOONE; mkMon 27 27 SPECIES_ZIGZAGOON; mkMon 25 25 SPECIES_ODDISH; mkMon 27 27 SPECIES_LINOONE; mkMon 26 26 SPECIES_ODDISH; mkMon 27 27 SPECIES_ODDISH; mkMon 24 24 SPECIES_ODDISH; mkMon 25 25 SPECIES_TROPIUS; mkMon 26 26 SPECIES_TROPIUS; mkMon 27 27 SPECIES_TROPIUS; mkMon 25 25 SPECIES_KECLEON]))
     (Some (mkMons 4 [mkMon 5 35 SPECIES_TENTACOOL; mkMon 10 30 SPECIES_WINGULL; mkMon 15 25 SPECIES_WINGULL; mkMon 25 30 SPECIES_PELIPPER; mkMon 25 30 SPECIES_PELIPPER]))
     None
     (Some (mkMons 30 [mkMon 5 10 SPECIES_MAGIKARP; mkMon 5 10 SPECIES_TENTACOOL; mkMon 10 30 SPECIES_MAGIKARP; mkMon 10 30 SPECIES_TENTACOOL; mkMon 10 30 SPECIES_CARVANHA; mkMon 25 30 SPECIES_CARVANHA; mkMon 30 35 SPECIES_CARVANHA; mkMon 20 25 SPECIES_CARVANHA; mkMon 35 40 SPECIES_CARVANHA; mkMon 40 45 SPECIES_CARVANHA]));
   mkEnc "MAP_ROUTE120" "Route120_Sapphire"
     (Some (mkMons 20 [mkMon 25 25 SPECIES_ZIGZAGOON; mkMon 25 25 SPECIES_LINOONE; mkMon 27 27 SPECIES_LINOONE; mkMon 25 25 SPECIES_ODDISH; mkMon 25 25 SPECIES_MARILL; mkMon 26 26 SPECIES_ODDISH; mkMon 27 27 SPECIES_ODDISH; mkMon 27 27 SPECIES_MARILL; mkMon 25 25 SPECIES_ABSOL; mkMon 27 27 SPECIES_ABSOL; mkMon 25 25 SPECIES_KECLEON; mkMon 25 25 SPECIES_SURSKIT]))
     (Some (mkMons 4 [mkMon 20 30 SPECIES_MARILL; mkMon 10 20 SPECIES_MARILL; mkMon 30 35 SPECIES_MARILL; mkMon 5 10 SPECIES_MARILL; mkMon 20 30 SPECIES_SURSKIT]))
     None
     (Some (mkMons 30 [mkMon 5 10 SPECIES_MAGIKARP; mkMon 5 10 SPECIES_GOLDEEN; mkMon 10 30 SPECIES_MAGIKARP; mkMon 10 30 SPECIES_GOLDEEN; mkMon 10 30 SPECIES_BARBOACH; mkMon 25 30 SPECIES_BARBOACH; mkMon 30 35 SPECIES_BARBOACH; mkMon 20 25 SPECIES_BARBOACH; mkMon 35 40 SPECIES_BARBOACH; mkMon 40 45 SPECIES_BARBOACH]));
   mkEnc "MAP_ROUTE121" "Route121_Sapphire"
     (Some (mkMons 20 [mkMon 26 26 SPECIES_ZIGZAGOON; mkMon 26 26 SPECIES_SHUPPET; mkMon 26 26 SPECIES_LINOONE; mkMon 28 28 SPECIES_SHUPPET; mkMon 28 28 SPECIES_LINOONE; mkMon 26 26 SPECIES_ODDISH; mkMon 28 28 SPECIES_ODDISH; mkMon 28 28 SPECIES_GLOOM; mkMon 26 26 SPECIES_WINGULL; mkMon 27 27 SPECIES_WINGULL; mkMon 28 28 SPECIES_WINGULL; mkMon 25 25 SPECIES_KECLEON]))
     (Some (mkMons 4 [mkMon 5 35 SPECIES_TENTACOOL; mkMon 10 30 SPECIES_WINGULL; mkMon 15 25 SPECIES_WINGULL; mkMon 25 30 SPECIES_PELIPPER; mkMon 25 30 SPECIES_PELIPPER]))
     None
     (Some (mkMons 30 [mkMon 5 10 SPECIES_MAGIKARP; mkMon 5 10 SPECIES_TENTACOOL; mkMon 10 30 SPECIES_MAGIKARP; mkMon 10 30 SPECIES_TENTACOOL; mkMon 10 30 SPECIES_WAILMER; mkMon 25 30 SPECIES_WAILMER; mkMon 30 35 SPECIES_WAILMER; mkMon 20 25 SPECIES_WAILMER; mkMon 35 40 SPECIES_WAILMER; mkMon 40 45 SPECIES_WAILMER]));
   mkEnc "MAP_ROUTE122" "Route122_Sapphire"
     None
     (Some (mkMons 4 [mkMon 5 35 SPECIES_TENTACOOL; mkMon 10 30 SPECIES_WINGULL; mkMon 15 25 SPECIES_WINGULL; mkMon 25 30 SPECIES_PELIPPER; mkMon 25 30 SPECIES_PELIPPER]))
     None
     (Some (mkMons 30 [mkMon 5 10 SPECIES_MAGIKARP; mkMon 5 10 SPECIES_TENTACOOL; mkMon 10 30 SPECIES_MAGIKARP; mkMon 10 30 SPECIES_TENTACOOL; mkMon 10 30 SPECIES_WAILMER; mkMon 30 35 SPECIES_SHARPEDO; mkMon 30 35 SPECIES_WAILMER; mkMon 25 30 SPECIES_WAILMER; mkMon 35 40 SPECIES_WAILMER; mkMon 40 45 SPECIES_WAILMER]));
   mkEnc "MAP_ROUTE123" "Route123_Sapphire"
     (Some (mkMons 20 [mkMon 26 26 SPECIES_ZIGZAGOON; mkMon 26 26 SPECIES_SHUPPET; mkMon 26 26 SPECIES_LINOONE; mkMon 28 28 SPECIES_SHUPPET; mkMon 28 28 SPECIES_LINOONE; mkMon 26 26 SPECIES_ODDISH; mkMon 28 28 SPECIES_ODDISH; mkMon 28 28 SPECIES_GLOOM; mkMon 26 26 SPECIES_WINGULL; mkMon 27 27 SPECIES_WINGULL; mkMon 28 28 SPECIES_WINGULL; mkMon 25 25 SPECIES_KECLEON]))
     (Some (mkMons 4 [mkMon 5 35 SPECIES_TENTACOOL; mkMon 10 30 SPECIES_WINGULL; mkMon 15 25 SPECIES_WINGULL; mkMon 25 30 SPECIES_PELIPPER; mkMon 25 30 SPECIES_PELIPPER]))
     None
     (Some (mkMons 30 [mkMon 5 10 SPECIES_MAGIKARP; mkMon 5 10 SPECIES_TENTACOOL; mkMon 10 30 SPECIES_MAGIKARP; mkMon 10 30 SPECIES_TENTACOOL; mkMon 10 30 SPECIES_WAILMER; mkMon 25 30 SPECIES_WAILMER; mkMon 30 35 SPECIES_WAILMER; mkMon 20 25 SPECIES_WAILMER; mkMon 35 40 SPECIES_WAILMER; mkMon 40 45 SPECIES_WAILMER]));
   mkEnc "MAP_ROUTE124" "Route124_Sapphire"
     None
     (Some (mkMons 4 [mkMon 5 35 SPECIES_TENTACOOL; mkMon 10 30 SPECIES_WINGULL; mkMon 15 25 SPECIES_WINGULL; mkMon 25 30 SPECIES_PELIPPER; mkMon 25 30 SPECIES_PELIPPER]))
     None
     (Some (mkMons 30 [mkMon 5 10 SPECIES_MAGIKARP; mkMon 5 10 SPECIES_TENTACOOL; mkMon 10 30 SPECIES_MAGIKARP; mkMon 10 30 SPECIES_TENTACOOL; mkMon 10 30 SPECIES_WAILMER; mkMon 30 35 SPECIES_SHARPEDO; mkMon 30 35 SPECIES_WAILMER; mkMon 25 30 SPECIES_WAILMER; mkMon 35 40 SPECIES_WAILMER; mkMon 40 45 SPECIES_WAILMER]));
   mkEnc "MAP_ROUTE125" "Route125_Sapphire"
     None
     (Some (mkMons 4 [mkMon 5 35 SPECIES_TENTACOOL; mkMon 10 30 SPECIES_WINGULL; mkMon 15 25 SPECIES_WINGULL; mkMon 25 30 SPECIES_PELIPPER; mkMon 25 30 SPECIES_PELIPPER]))
     None
     (Some (mkMons 30 [mkMon 5 10 SPECIES_MAGIKARP; mkMon 5 10 SPECIES_TENTACOOL; mkMon 10 30 SPECIES_MAGIKARP; mkMon 10 30 SPECIES_TENTACOOL; mkMon 10 30 SPECIES_WAILMER; mkMon 30 35 SPECIES_SHARPEDO; mkMon 30 35 SPECIES_WAILMER; mkMon 25 30 SPECIES_WAILMER; mkMon 35 40 SPECIES_WAILMER; mkMon 40 45 SPECIES_WAILMER]));
   mkEnc "MAP_ROUTE126" "Route126_Sapphire"
     None
     (Some (mkMons 4 [mkMon 5 35 SPECIES_TENTACOOL; mkMon 10 30 SPECIES_WINGULL; mkMon 15 25 SPECIES_WINGULL; mkMon 25 30 SPECIES_PELIPPER; mkMon 25 30 SPECIES_PELIPPER]))
     None
     (Some (mkMons 30 [mkMon 5 10 SPECIES_MAGIKARP; mkMon 5 10 SPECIES_TENTACOOL; mkMon 10 30 SPECIES_MAGIKARP; mkMon 10 30 SPECIES_TENTACOOL; mkMon 10 30 SPECIES_WAILMER; mkMon 30 35 SPECIES_SHARPEDO; mkMon 30 35 SPECIES_WAILMER; mkMon 25 30 SPECIES_WAILMER; mkMon 35 40 SPECIES_WAILMER; mkMon 40 45 SPECIES_WAILMER]));
   mkEnc "MAP_ROUTE127" "Route127_Sapphire"
     None
     (Some (mkMons 4 [mkMon 5 35 SPECIES_TENTACOOL; mkMon 10 30 SPECIES_WINGULL; mkMon 15 25 SPECIES_WINGULL; mkMon 25 30 SPECIES_PELIPPER; mkMon 25 30 SPECIES_PELIPPER]))
     None
     (Some (mkMons 30 [mkMon 5 10 SPECIES_MAGIKARP; mkMon 5 10 SPECIES_TENTACOOL; mkMon 10 30 SPECIES_MAGIKARP; mkMon 10 30 SPECIES_TENTACOOL; mkMon 10 30 SPECIES_WAILMER; mkMon 30 35 SPECIES_SHARPEDO; mkMon 30 35 SPECIES_WAILMER; mkMon 25 30 SPECIES_WAILMER; mkMon 35 40 SPECIES_WAILMER; mkMon 40 45 SPECIES_WAILMER]));
   mkEnc "MAP_ROUTE128" "Route128_Sapphire"
     None
     (Some (mkMons 4 [mkMon 5 35 SPECIES_TENTACOOL; mkMon 10 30 SPECIES_WINGULL; mkMon 15 25 SPECIES_WINGULL; mkMon 25 30 SPECIES_PELIPPER; mkMon 25 30 SPECIES_PELIPPER]))
     None
     (Some (mkMons 30 [mkMon 5 10 SPECIES_MAGIKARP; mkMon 5 10 SPECIES_TENTACOOL; mkMon 10 30 SPECIES_MAGIKARP; mkMon 10 30 SPECIES_LUVDISC; mkMon 10 30 SPECIES_WAILMER; mkMon 30 35 SPECIES_LUVDISC; mkMon 30 35 SPECIES_WAILMER; mkMon 30 35 SPECIES_CORSOLA; mkMon 35 40 SPECIES_WAILMER; mkMon 40 45 SPECIES_WAILMER]));
   mkEnc "MAP_ROUTE129" "Route129_Sapphire"
     None
     (Some (mkMons 4 [mkMon 5 35 SPECIES_TENTACOOL; mkMon 10 30 SPECIES_WINGULL; mkMon 15 25 SPECIES_WINGULL; mkMon 25 30 SPECIES_PELIPPER; mkMon 25 30 SPECIES_WAILORD]))
     None
     (Some (mkMons 30 [mkMon 5 10 SPECIES_MAGIKARP; mkMon 5 10 SPECIES_TENTACOOL; mkMon 10 30 SPECIES_MAGIKARP; mkMon 10 30 SPECIES_TENTACOOL; mkMon 10 30 SPECIES_WAILMER; mkMon 30 35 SPECIES_SHARPEDO; mkMon 30 35 SPECIES_WAILMER; mkMon 25 30 SPECIES_WAILMER; mkMon 35 40 SPECIES_WAILMER; mkMon 40 45 SPECIES_WAILMER]));
   mkEnc "MAP_ROUTE130" "Route130_Sapphire"
     (Some (mkMons 20 [mkMon 30 30 SPECIES_WYNAUT; mkMon 35 35 SPECIES_WYNAUT; mkMon 25 25 SPECIES_WYNAUT; mkMon 40 40 SPECIES_WYNAUT; mkMon 20 20 SPECIES_WYNAUT; mkMon 45 45 SPECIES_WYNAUT; mkMon 15 15 SPECIES_WYNAUT; mkMon 50 50 SPECIES_WYNAUT; mkMon 10 10 SPECIES_WYNAUT; mkMon 5 5 SPECIES_WYNAUT; mkMon 10 10 SPECIES_WYNAUT; mkMon 5 5 SPECIES_WYNAUT]))
     (Some (mkMons 4 [mkMon 5 35 SPECIES_TENTACOOL; mkMon 10 30 SPECIES_WINGULL; mkMon 15 25 SPECIES_WINGULL; mkMon 25 30 SPECIES_PELIPPER; mkMon 25 30 SPECIES_PELIPPER]))
     None
     (Some (mkMons 30 [mkMon 5 10 SPECIES_MAGIKARP; mkMon 5 10 SPECIES_TENTACOOL; mkMon 10 30 SPECIES_MAGIKARP; mkMon 10 30 SPECIES_TENTACOOL; mkMon 10 30 SPECIES_WAILMER; mkMon 30 35 SPECIES_SHARPEDO; mkMon 30 35 SPECIES_WAILMER; mkMon 25 30 SPECIES_WAILMER; mkMon 35 40 SPECIES_WAILMER; mkMon 40 45 SPECIES_WAILMER]));
   mkEnc "MAP_ROUTE131" "Route131_Sapphire"
     None
     (Some (mkMons 4 [mkMon 5 35 SPECIES_TENTACOOL; mkMon 10 30 SPECIES_WINGULL; mkMon 15 25 SPECIES_WINGULL; mkMon 25 30 SPECIES_PELIPPER; mkMon 25 30 SPECIES_PELIPPER]))
     None
     (Some (mkMons 30 [mkMon 5 10 SPECIES_MAGIKARP; mkMon 5 10 SPECIES_TENTACOOL; mkMon 10 30 SPECIES_MAGIKARP; mkMon 10 30 SPECIES_TENTACOOL; mkMon 10 30 SPECIES_WAILMER; mkMon 30 35 SPECIES_SHARPEDO; mkMon 30 35 SPECIES_WAILMER; mkMon 25 30 SPECIES_WAILMER; mkMon 35 40 SPECIES_WAILMER; mkMon 40 45 SPECIES_WAILMER]));
   mkEnc "MAP_ROUTE132" "Route132_Sapphire"
     None
     (Some (mkMons 4 [mkMon 5 35 SPECIES_TENTACOOL; mkMon 10 30 SPECIES_WINGULL; mkMon 15 25 SPECIES_WINGULL; mkMon 25 30 SPECIES_PELIPPER; mkMon 25 30 SPECIES_PELIPPER]))
     None
     (Some (mkMons 30 [mkMon 5 10 SPECIES_MAGIKARP; mkMon 5 10 SPECIES_TENTACOOL; mkMon 10 30 SPECIES_MAGIKARP; mkMon 10 30 SPECIES_TENTACOOL; mkMon 10 30 SPECIES_WAILMER; mkMon 30 35 SPECIES_SHARPEDO; mkMon 30 35 SPECIES_WAILMER; mkMon 25 30 SPECIES_HORSEA; mkMon 35 40 SPECIES_WAILMER; mkMon 40 45 SPECIES_WAILMER]));
   mkEnc "MAP_ROUTE133" "Route133_Sapphire"
     None
     (Some (mkMons 4 [mkMon 5 35 SPECIES_TENTACOOL; mkMon 10 30 SPECIES_WINGULL; mkMon 15 25 SPECIES_WINGULL; mkMon 25 30 SPECIES_PELIPPER; mkMon 25 30 SPECIES_PELIPPER]))
     None
     (Some (mkMons 30 [mkMon 5 10 SPECIES_MAGIKARP; mkMon 5 10 SPECIES_TENTACOOL; mkMon 10 30 SPECIES_MAGIKARP; mkMon 10 30 SPECIES_TENTACOOL; mkMon 10 30 SPECIES_WAILMER; mkMon 30 35 SPECIES_SHARPEDO; mkMon 30 35 SPECIES_WAILMER; mkMon 25 30 SPECIES_HORSEA; mkMon 35 40 SPECIES_WAILMER; mkMon 40 45 SPECIES_WAILMER]));
   mkEnc "MAP_ROUTE134" "Route134_Sapphire"
     None
     (Some (mkMons 4 [mkMon 5 35 SPECIES_TENTACOOL; mkMon 10 30 SPECIES_WINGULL; mkMon 15 25 SPECIES_WINGULL; mkMon 25 30 SPECIES_PELIPPER; mkMon 25 30 SPECIES_PELIPPER]))
     None
     (Some (mkMons 30 [mkMon 5 10 SPECIES_MAGIKARP; mkMon 5 10 SPECIES_TENTACOOL; mkMon 10 30 SPECIES_MAGIKARP; mkMon 10 30 SPECIES_TENTACOOL; mkMon 10 30 SPECIES_WAILMER; mkMon 30 35 SPECIES_SHARPEDO; mkMon 30 35 SPECIES_WAILMER; mkMon 25 30 SPECIES_HORSEA; mkMon 35 40 SPECIES_WAILMER; mkMon 40 45 SPECIES_WAILMER]));
   mkEnc "MAP_SAFARI_ZONE_NORTHWEST" "SafariZone_Northwest_Sapphire"
     (Some (mkMons 25 [mkMon 27 27 SPECIES_RHYHORN; mkMon 27 27 SPECIES_ODDISH; mkMon 29 29 SPECIES_RHYHORN; mkMon 29 29 SPECIES_ODDISH; mkMon 27 27 SPECIES_DODUO; mkMon 29 29 SPECIES_GLOOM; mkMon 31 31 SPECIES_GLOOM; mkMon 29 29 SPECIES_DODUO; mkMon 29 29 SPECIES_DODRIO; mkMon 27 27 SPECIES_PINSIR; mkMon 31 31 SPECIES_DODRIO; mkMon 29 29 SPECIES_PINSIR]))
     (Some (mkMons 9 [mkMon 20 30 SPECIES_PSYDUCK; mkMon 20 30 SPECIES_PSYDUCK; mkMon 30 35 SPECIES_PSYDUCK; mkMon 30 35 SPECIES_GOLDUCK; mkMon 25 40 SPECIES_GOLDUCK]))
     None
     (Some (mkMons 35 [mkMon 5 10 SPECIES_MAGIKARP; mkMon 5 10 SPECIES_GOLDEEN; mkMon 10 30 SPECIES_MAGIKARP; mkMon 10 25 SPECIES_GOLDEEN; mkMon 10 30 SPECIES_GOLDEEN; mkMon 25 30 SPECIES_GOLDEEN; mkMon 30 35 SPECIES_GOLDEEN; mkMon 30 35 SPECIES_SEAKING; mkMon 35 40 SPECIES_SEAKING; mkMon 25 30 SPECIES_SEAKING]));
   mkEnc "MAP_SAFARI_ZONE_NORTHEAST" "SafariZone_Northeast_Sapphire"
     (Some (mkMons 25 [mkMon 27 27 SPECIES_PHANPY; mkMon 27 27 SPECIES_ODDISH; mkMon 29 29 SPECIES_PHANPY; mkMon 29 29 SPECIES_ODDISH; mkMon 27 27 SPECIES_NATU; mkMon 29 29 SPECIES_GLOOM; mkMon 31 31 SPECIES_GLOOM; mkMon 29 29 SPECIES_NATU; mkMon 29 29 SPECIES_XATU; mkMon 27 27 SPECIES_HERACROSS; mkMon 31 31 SPECIES_XATU; mkMon 29 29 SPECIES_HERACROSS]))
     None
     (Some (mkMons 25 [mkMon 10 15 SPECIES_GEODUDE; mkMon 5 10 SPECIES_GEODUDE; mkMon 15 20 SPECIES_GEODUDE; mkMon 20 25 SPECIES_GEODUDE; mkMon 25 30 SPECIES_GEODUDE]))
     None;
   mkEnc "MAP_SAFARI_ZONE_SOUTHWEST" "SafariZone_Southwest_Sapphire"
     (Some (mkMons 25 [mkMon 25 25 SPECIES_ODDISH; mkMon 27 27 SPECIES_ODDISH; mkMon 25 25 SPECIES_GIRAFARIG; mkMon 27 27 SPECIES_GIRAFARIG; mkMon 25 25 SPECIES_NATU; mkMon 27 27 SPECIES_DODUO; mkMon 25 25 SPECIES_GLOOM; mkMon 27 27 SPECIES_WOBBUFFET; mkMon 25 25 SPECIES_PIKACHU; mkMon 27 27 SPECIES_WOBBUFFET; mkMon 27 27 SPECIES_PIKACHU; mkMon 29 29 SPECIES_WOBBUFFET]))
     (Some (mkMons 9 [mkMon 20 30 SPECIES_PSYDUCK; mkMon 20 30 SPECIES_PSYDUCK; mkMon 30 35 SPECIES_PSYDUCK; mkMon 30 35 SPECIES_PSYDUCK; mkMon 30 35 SPECIES_PSYDUCK]))
     None
     (Some (mkMons 35 [mkMon 5 10 SPECIES_MAGIKARP; mkMon 5 10 SPECIES_GOLDEEN; mkMon 10 30 SPECIES_MAGIKARP; mkMon 10 25 SPECIES_GOLDEEN; mkMon 10 30 SPECIES_GOLDEEN; mkMon 25 30 SPECIES_GOLDEEN; mkMon 30 35 SPECIES_GOLDEEN; mkMon 30 35 SPECIES_SEAKING; mkMon 35 40 SPECIES_SEAKING; mkMon 25 30 SPECIES_SEAKING]));
   mkEnc "MAP_SAFARI_ZONE_SOUTHEAST" "SafariZone_Southeast_Sapphire"
     (Some (mkMons 25 [mkMon 25 25 SPECIES_ODDISH; mkMon 27 27 SPECIES_ODDISH; mkMon 25 25 SPECIES_GIRAFARIG; mkMon 27 27 SPECIES_GIRAFARIG; mkMon 25 25 SPECIES_NATU; mkMon 25 25 SPECIES_DODUO; mkMon 25 25 SPECIES_GLOOM; mkMon 27 27 SPECIES_WOBBUFFET; mkMon 25 25 SPECIES_PIKACHU; mkMon 27 27 SPECIES_WOBBUFFET; mkMon 27 27 SPECIES_PIKACHU; mkMon 29 29 SPECIES_WOBBUFFET]))
     None
     None
     None;
   mkEnc "MAP_DEWFORD_TOWN" "DewfordTown_Sapphire"
     None
     (Some (mkMons 4 [mkMon 5 35 SPECIES_TENTACOOL; mkMon 10 30 SPECIES_WINGULL; mkMon 15 25 SPECIES_WINGULL; mkMon 25 30 SPECIES_PELIPPER; mkMon 25 30 SPECIES_PELIPPER]))
     None
     (Some (mkMons 10 [mkMon 5 10 SPECIES_MAGIKARP; mkMon 5 10 SPECIES_TENTACOOL; mkMon 10 30 SPECIES_MAGIKARP; mkMon 10 30 SPECIES_TENTACOOL; mkMon 10 30 SPECIES_WAILMER; mkMon 25 30 SPECIES_WAILMER; mkMon 30 35 SPECIES_WAILMER; mkMon 20 25 SPECIES_WAILMER; mkMon 35 40 SPECIES_WAILMER; mkMon 40 45 SPECIES_WAILMER]));
   mkEnc "MAP_PACIFIDLOG_TOWN" "PacifidlogTown_Sapphire"
     None
     (Some (mkMons 4 [mkMon 5 35 SPECIES_TENTACOOL; mkMon 10 30 SPECIES_WINGULL; mkMon 15 25 SPECIES_WINGULL; mkMon 25 30 SPECIES_PELIPPER; mkMon 25 30 SPECIES_PELIPPER]))
     None
     (Some (mkMons 10 [mkMon 5 10 SPECIES_MAGIKARP; mkMon 5 10 SPECIES_TENTACOOL; mkMon 10 30 SPECIES_MAGIKARP; mkMon 10 30 SPECIES_TENTACOOL; mkMon 10 30 SPECIES_WAILMER; mkMon 30 35 SPECIES_SHARPEDO; mkMon 30 35 SPECIES_WAILMER; mkMon 25 30 SPECIES_WAILMER; mkMon 35 40 SPECIES_WAILMER; mkMon 40 45 SPECIES_WAILMER]));
   mkEnc "MAP_UNDERWATER1" "Underwater1_Sapphire"
     None
     (Some (mkMons 4 [mkMon 20 30 SPECIES_CLAMPERL; mkMon 20 30 SPECIES_CHINCHOU; mkMon 30 35 SPECIES_CLAMPERL; mkMon 30 35 SPECIES_RELICANTH; mkMon 30 35 SPECIES_RELICANTH]))
     None
     None;
   mkEnc "MAP_UNDERWATER2" "Underwater2_Sapphire"
     None
     (Some (mkMons 4 [mkMon 20 30 SPECIES_CLAMPERL; mkMon 20 30 SPECIES_CHINCHOU; mkMon 30 35 SPECIES_CLAMPERL; mkMon 30 35 SPECIES_RELICANTH; mkMon 30 35 SPECIES_RELICANTH]))
     None
     None].

(** resources/encount/e_wild_encounters.json *)
Definition e_encounters : list encounter :=
  [mkEnc "MAP_ROUTE101" "gRoute101"
     (Some (mkMons 20 [mkMon 2 2 SPECIES_WURMPLE; mkMon 2 2 SPECIES_POOCHYENA; mkMon 2 2 SPECIES_WURMPLE; mkMon 3 3 SPECIES_WURMPLE; mkMon 3 3 SPECIES_POOCHYENA; mkMon 3 3 SPECIES_POOCHYENA; mkMon 3 3 SPECIES_WURMPLE; mkMon 3 3 SPECIES_POOCHYENA; mkMon 2 2 SPECIES_ZIGZAGOON; mkMon 2 2 SPECIES_ZIGZAGOON; mkMon 3 3 SPECIES_ZIGZAGOON; mkMon 3 3 SPECIES_ZIGZAGOON]))
     None
     None
     None;
   mkEnc "MAP_ROUTE102" "gRoute102"
     (Some (mkMons 20 [mkMon 3 3 SPECIES_POOCHYENA; mkMon 3 3 SPECIES_WURMPLE; mkMon 4 4 SPECIES_POOCHYENA; mkMon 4 4 SPECIES_WURMPLE; mkMon 3 3 SPECIES_LOTAD; mkMon 4 4 SPECIES_LOTAD; mkMon 3 3 SPECIES_ZIGZAGOON; mkMon 3 3 SPECIES_ZIGZAGOON; mkMon 4 4 SPECIES_ZIGZAGOON; mkMon 4 4 SPECIES_RALTS; mkMon 4 4 SPECIES_ZIGZAGOON; mkMon 3 3 SPECIES_SEEDOT]))
     (Some (mkMons 4 [mkMon 20 30 SPECIES_MARILL; mkMon 10 20 SPECIES_MARILL; mkMon 30 35 SPECIES_MARILL; mkMon 5 10 SPECIES_MARILL; mkMon 20 30 SPECIES_GOLDEEN]))
     None
     (Some (mkMons 30 [mkMon 5 10 SPECIES_MAGIKARP; mkMon 5 10 SPECIES_GOLDEEN; mkMon 10 30 SPECIES_MAGIKARP; mkMon 10 30 SPECIES_GOLDEEN; mkMon 10 30 SPECIES_CORPHISH; mkMon 25 30 SPECIES_CORPHISH; mkMon 30 35 SPECIES_CORPHISH; mkMon 20 25 SPECIES_CORPHISH; mkMon 35 40 SPECIES_CORPHISH; mkMon 40 45 SPECIES_CORPHISH]));
   mkEnc "MAP_ROUTE103" "gRoute103"
     (Some (mkMons 20 [mkMon 2 2 SPECIES_POOCHYENA; mkMon 3 3 SPECIES_POOCHYENA; mkMon 3 3 SPECIES_POOCHYENA; mkMon 4 4 SPECIES_POOCHYENA; mkMon 2 2 SPECIES_WINGULL; mkMon 3 3 SPECIES_ZIGZAGOON; mkMon 3 3 SPECIES_ZIGZAGOON; mkMon 4 4 SPECIES_ZIGZAGOON; mkMon 3 3 SPECIES_WINGULL; mkMon 3 3 SPECIES_WINGULL; mkMon 2 2 SPECIES_WINGULL; mkMon 4 4 SPECIES_WINGULL]))
     (Some (mkMons 4 [mkMon 5 35 SPECIES_TENTACOOL; mkMon 10 30 SPECIES_WINGULL; mkMon 15 25 SPECIES_WINGULL; mkMon 25 30 SPECIES_PELIPPER; mkMon 25 30 SPECIES_PELIPPER]))
     None
     (Some (mkMons 30 [mkMon 5 10 SPECIES_MAGIKARP; mkMon 5 10 SPECIES_TENTACOOL; mkMon 10 30 SPECIES_MAGIKARP; mkMon 10 30 SPECIES_TENTACOOL; mkMon 10 30 SPECIES_WAILMER; mkMon 30 35 SPECIES_SHARPEDO; mkMon 30 35 SPECIES_WAILMER; mkMon 25 30 SPECIES_WAILMER; mkMon 35 40 SPECIES_WAILMER; mkMon 40 45 SPECIES_WAILMER]));
   mkEnc "MAP_ROUTE104" "gRoute104"
     (Some (mkMons 20 [mkMon 4 4 SPECIES_POOCHYENA; mkMon 4 4 SPECIES_WURMPLE; mkMon 5 5 SPECIES_POOCHYENA; mkMon 5 5 SPECIES_MARILL; mkMon 4 4 SPECIES_MARILL; mkMon 5 5 SPECIES_POOCHYENA; mkMon 4 4 SPECIES_TAILLOW; mkMon 5 5 SPECIES_TAILLOW; mkMon 4 4 SPECIES_WINGULL; mkMon 4 4 SPECIES_WINGULL; mkMon 3 3 SPECIES_WINGULL; mkMon 5 5 SPECIES_WINGULL]))
     (Some (mkMons 4 [mkMon 10 30 SPECIES_WINGULL; mkMon 15 25 SPECIES_WINGULL; mkMon 15 25 SPECIES_WINGULL; mkMon 25 30 SPECIES_PELIPPER; mkMon 25 30 SPECIES_PELIPPER]))
     None
     (Some (mkMons 30 [mkMon 5 10 SPECIES_MAGIKARP; mkMon 5 10 SPECIES_MAGIKARP; mkMon 10 30 SPECIES_MAGIKARP; mkMon 10 30 SPECIES_MAGIKARP; mkMon 10 30 SPECIES_MAGIKARP; mkMon 25 30 SPECIES_MAGIKARP; mkMon 30 35 SPECIES_MAGIKARP; mkMon 20 25 SPECIES_MAGIKARP; mkMon 35 40 SPECIES_MAGIKARP; mkMon 40 45 SPECIES_MAGIKARP]));
   mkEnc "MAP_ROUTE105" "gRoute105"
     None
     (Some (mkMons 4 [mkMon 5 35 SPECIES_TENTACOOL; mkMon 10 30 SPECIES_WINGULL; mkMon 15 25 SPECIES_WINGULL; mkMon 25 30 SPECIES_PELIPPER; mkMon 25 30 SPECIES_PELIPPER]))
     None
     (Some (mkMons 30 [mkMon 5 10 SPECIES_MAGIKARP; mkMon 5 10 SPECIES_TENTACOOL; mkMon 10 30 SPECIES_MAGIKARP; mkMon 10 30 SPECIES_TENTACOOL; mkMon 10 30 SPECIES_WAILMER; mkMon 25 30 SPECIES_WAILMER; mkMon 30 35 SPECIES_WAILMER; mkMon 20 25 SPECIES_WAILMER; mkMon 35 40 SPECIES_WAILMER; mkMon 40 45 SPECIES_WAILMER]));
   mkEnc "MAP_ROUTE110" "gRoute110"
     (Some (mkMons 20 [mkMon 12 12 SPECIES_POOCHYENA; mkMon 12 12 SPECIES_ELECTRIKE; mkMon 12 12 SPECIES_GULPIN; mkMon 13 13 SPECIES_ELECTRIKE; mkMon 13 13 SPECIES_MINUN; mkMon 13 13 SPECIES_ODDISH; mkMon 13 13 SPECIES_MINUN; mkMon 13 13 SPECIES_GULPIN; mkMon 12 12 SPECIES_WINGULL; mkMon 12 12 SPECIES_WINGULL; mkMon 12 12 SPECIES_PLUSLE; mkMon 13 13 SPECIES_PLUSLE]))
     (Some (mkMons 4 [mkMon 5 35 SPECIES_TENTACOOL; mkMon 10 30 SPECIES_WINGULL; mkMon 15 25 SPECIES_WINGULL; mkMon 25 30 SPECIES_PELIPPER; mkMon 25 30 SPECIES_PELIPPER]))
     None
     (Some (mkMons 30 [mkMon 5 10 SPECIES_MAGIKARP; mkMon 5 10 SPECIES_TENTACOOL; mkMon 10 30 SPECIES_MAGIKARP; mkMon 10 30 SPECIES_TENTACOOL; mkMon 10 30 SPECIES_WAILMER; mkMon 25 30 SPECIES_WAILMER; mkMon 30 35 SPECIES_WAILMER; mkMon 20 25 SPECIES_WAILMER; mkMon 35 40 SPECIES_WAILMER; mkMon 40 45 SPECIES_WAILMER]));
   mkEnc "MAP_ROUTE111" "gRoute111"
     (Some (mkMons 10 [mkMon 20 20 SPECIES_SANDSHREW; mkMon 20 20 SPECIES_TRAPINCH; mkMon 21 21 SPECIES_SANDSHREW; mkMon 21 21 SPECIES_TRAPINCH; mkMon 19 19 SPECIES_BALTOY; mkMon 21 21 SPECIES_BALTOY; mkMon 19 19 SPECIES_SANDSHREW; mkMon 19 19 SPECIES_TRAPINCH; mkMon 20 20 SPECIES_BALTOY; mkMon 20 20 SPECIES_CACNEA; mkMon 22 22 SPECIES_CACNEA; mkMon 22 22 SPECIES_CACNEA]))
     (Some (mkMons 4 [mkMon 20 30 SPECIES_MARILL; mkMon 10 20 SPECIES_MARILL; mkMon 30 35 SPECIES_MARILL; mkMon 5 10 SPECIES_MARILL; mkMon 20 30 SPECIES_GOLDEEN]))
     (Some (mkMons 20 [mkMon 10 15 SPECIES_GEODUDE; mkMon 5 10 SPECIES_GEODUDE; mkMon 15 20 SPECIES_GEODUDE; mkMon 15 20 SPECIES_GEODUDE; mkMon 15 20 SPECIES_GEODUDE]))
     (Some (mkMons 30 [mkMon 5 10 SPECIES_MAGIKARP; mkMon 5 10 SPECIES_GOLDEEN; mkMon 10 30 SPECIES_MAGIKARP; mkMon 10 30 SPECIES_GOLDEEN; mkMon 10 30 SPECIES_BARBOACH; mkMon 25 30 SPECIES_BARBOACH; mkMon 30 35 SPECIES_BARBOACH; mkMon 20 25 SPECIES_BARBOACH; mkMon 35 40 SPECIES_BARBOACH; mkMon 40 45 SPECIES_BARBOACH]));
   mkEnc "MAP_ROUTE112" "gRoute112"
     (Some (mkMons 20 [mkMon 15 15 SPECIES_NUMEL; mkMon 15 15 SPECIES_NUMEL; mkMon 15 15 SPECIES_MARILL; mkMon 14 14 SPECIES_NUMEL; mkMon 14 14 SPECIES_NUMEL; mkMon 14 14 SPECIES_MARILL; mkMon 16 16 SPECIES_NUMEL; mkMon 16 16 SPECIES_MARILL; mkMon 16 16 SPECIES_NUMEL; mkMon 16 16 SPECIES_NUMEL; mkMon 16 16 SPECIES_NUMEL; mkMon 16 16 SPECIES_NUMEL]))
     None
     None
     None;
   mkEnc "MAP_ROUTE113" "gRoute113"
     (Some (mkMons 20 [mkMon 15 15 SPECIES_SPINDA; mkMon 15 15 SPECIES_SPINDA; mkMon 15 15 SPECIES_SLUGMA; mkMon 14 14 SPECIES_SPINDA; mkMon 14 14 SPECIES_SPINDA; mkMon 14 14 SPECIES_SLUGMA; mkMon 16 16 SPECIES_SPINDA; mkMon 16 16 SPECIES_SLUGMA; mkMon 16 16 SPECIES_SPINDA; mkMon 16 16 SPECIES_SKARMORY; mkMon 16 16 SPECIES_SPINDA; mkMon 16 16 SPECIES_SKARMORY]))
     None
     None
     None;
   mkEnc "MAP_ROUTE114" "gRoute114"
     (Some (mkMons 20 [mkMon 16 16 SPECIES_SWABLU; mkMon 16 16 SPECIES_LOTAD; mkMon 17 17 SPECIES_SWABLU; mkMon 15 15 SPECIES_SWABLU; mkMon 15 15 SPECIES_LOTAD; mkMon 16 16 SPECIES_LOMBRE; mkMon 16 16 SPECIES_LOMBRE; mkMon 18 18 SPECIES_LOMBRE; mkMon 17 17 SPECIES_SEVIPER; mkMon 15 15 SPECIES_SEVIPER; mkMon 17 17 SPECIES_SEVIPER; mkMon 15 15 SPECIES_NUZLEAF]))
     (Some (mkMons 4 [mkMon 20 30 SPECIES_MARILL; mkMon 10 20 SPECIES_MARILL; mkMon 30 35 SPECIES_MARILL; mkMon 5 10 SPECIES_MARILL; mkMon 20 30 SPECIES_GOLDEEN]))
     (Some (mkMons 20 [mkMon 10 15 SPECIES_GEODUDE; mkMon 5 10 SPECIES_GEODUDE; mkMon 15 20 SPECIES_GEODUDE; mkMon 15 20 SPECIES_GEODUDE; mkMon 15 20 SPECIES_GEODUDE]))
     (Some (mkMons 30 [mkMon 5 10 SPECIES_MAGIKARP; mkMon 5 10 SPECIES_GOLDEEN; mkMon 10 30 SPECIES_MAGIKARP; mkMon 10 30 SPECIES_GOLDEEN; mkMon 10 30 SPECIES_BARBOACH; mkMon 25 30 SPECIES_BARBOACH; mkMon 30 35 SPECIES_BARBOACH; mkMon 20 25 SPECIES_BARBOACH; mkMon 35 40 SPECIES_BARBOACH; mkMon 40 45 SPECIES_BARBOACH]));
   mkEnc "MAP_ROUTE116" "gRoute116"
     (Some (mkMons 20 [mkMon 6 6 SPECIES_POOCHYENA; mkMon 6 6 SPECIES_WHISMUR; mkMon 6 6 SPECIES_NINCADA; mkMon 7 7 SPECIES_ABRA; mkMon 7 7 SPECIES_NINCADA; mkMon 6 6 SPECIES_TAILLOW; mkMon 7 7 SPECIES_TAILLOW; mkMon 8 8 SPECIES_TAILLOW; mkMon 7 7 SPECIES_POOCHYENA; mkMon 8 8 SPECIES_POOCHYENA; mkMon 7 7 SPECIES_SKITTY; mkMon 8 8 SPECIES_SKITTY]))
     None
     None
     None;
   mkEnc "MAP_ROUTE117" "gRoute117"
     (Some (mkMons 20 [mkMon 13 13 SPECIES_POOCHYENA; mkMon 13 13 SPECIES_ODDISH; mkMon 14 14 SPECIES_POOCHYENA; mkMon 14 14 SPECIES_ODDISH; mkMon 13 13 SPECIES_MARILL; mkMon 13 13 SPECIES_ODDISH; mkMon 13 13 SPECIES_ILLUMISE; mkMon 13 13 SPECIES_ILLUMISE; mkMon 14 14 SPECIES_ILLUMISE; mkMon 14 14 SPECIES_ILLUMISE; mkMon 13 13 SPECIES_VOLBEAT; mkMon 13 13 SPECIES_SEEDOT]))
     (Some (mkMons 4 [mkMon 20 30 SPECIES_MARILL; mkMon 10 20 SPECIES_MARILL; mkMon 30 35 SPECIES_MARILL; mkMon 5 10 SPECIES_MARILL; mkMon 20 30 SPECIES_GOLDEEN]))
     None
     (Some (mkMons 30 [mkMon 5 10 SPECIES_MAGIKARP; mkMon 5 10 SPECIES_GOLDEEN; mkMon 10 30 SPECIES_MAGIKARP; mkMon 10 30 SPECIES_GOLDEEN; mkMon 10 30 SPECIES_CORPHISH; mkMon 25 30 SPECIES_CORPHISH; mkMon 30 35 SPECIES_CORPHISH; mkMon 20 25 SPECIES_CORPHISH; mkMon 35 40 SPECIES_CORPHISH; mkMon 40 45 SPECIES_CORPHISH]));
   mkEnc "MAP_ROUTE118" "gRoute118"
     (Some (mkMons 20 [mkMon 24 24 SPECIES_ZIGZAGOON; mkMon 24 24 SPECIES_ELECTRIKE; mkMon 26 26 SPECIES_ZIGZAGOON; mkMon 26 26 SPECIES_ELECTRIKE; mkMon 26 26 SPECIES_LINOONE; mkMon 26 26 SPECIES_MANECTRIC; mkMon 25 25 SPECIES_WINGULL; mkMon 25 25 SPECIES_WINGULL; mkMon 26 26 SPECIES_WINGULL; mkMon 26 26 SPECIES_WINGULL; mkMon 27 27 SPECIES_WINGULL; mkMon 25 25 SPECIES_KECLEON]))
     (Some (mkMons 4 [mkMon 5 35 SPECIES_TENTACOOL; mkMon 10 30 SPECIES_WINGULL; mkMon 15 25 SPECIES_WINGULL; mkMon 25 30 SPECIES_PELIPPER; mkMon 25 30 SPECIES_PELIPPER]))
     None
     (Some (mkMons 30 [mkMon 5 10 SPECIES_MAGIKARP; mkMon 5 10 SPECIES_TENTACOOL; mkMon 10 30 SPECIES_MAGIKARP; mkMon 10 30 SPECIES_TENTACOOL; mkMon 10 30 SPECIES_CARVANHA; mkMon 30 35 SPECIES_SHARPEDO; mkMon 30 35 SPECIES_CARVANHA; mkMon 20 25 SPECIES_CARVANHA; mkMon 35 40 SPECIES_CARVANHA; mkMon 40 45 SPECIES_CARVANHA]));
   mkEnc "MAP_ROUTE124" "gRoute124"
     None
     (Some (mkMons 4 [mkMon 5 35 SPECIES_TENTACOOL; mkMon 10 30 SPECIES_WINGULL; mkMon 15 25 SPECIES_WINGULL; mkMon 25 30 SPECIES_PELIPPER; mkMon 25 30 SPECIES_PELIPPER]))
     None
     (Some (mkMons 30 [mkMon 5 10 SPECIES_MAGIKARP; mkMon 5 10 SPECIES_TENTACOOL; mkMon 10 30 SPECIES_MAGIKARP; mkMon 10 30 SPECIES_TENTACOOL; mkMon 10 30 SPECIES_WAILMER; mkMon 30 35 SPECIES_SHARPEDO; mkMon 30 35 SPECIES_WAILMER; mkMon 25 30 SPECIES_WAILMER; mkMon 35 40 SPECIES_WAILMER; mkMon 40 45 SPECIES_WAILMER]));
   mkEnc "MAP_PETALBURG_WOODS" "gPetalburgWoods"
     (Some (mkMons 20 [mkMon 5 5 SPECIES_POOCHYENA; mkMon 5 5 SPECIES_WURMPLE; mkMon 5 5 SPECIES_SHROOMISH; mkMon 6 6 SPECIES_POOCHYENA; mkMon 5 5 SPECIES_SILCOON; mkMon 5 5 SPECIES_CASCOON; mkMon 6 6 SPECIES_WURMPLE; mkMon 6 6 SPECIES_SHROOMISH; mkMon 5 5 SPECIES_TAILLOW; mkMon 5 5 SPECIES_SLAKOTH; mkMon 6 6 SPECIES_TAILLOW; mkMon 6 6 SPECIES_SLAKOTH]))
     None
     None
     None;
   mkEnc "MAP_RUSTURF_TUNNEL" "gRusturfTunnel"
     (Some (mkMons 10 [mkMon 6 6 SPECIES_WHISMUR; mkMon 7 7 SPECIES_WHISMUR; mkMon 6 6 SPECIES_WHISMUR; mkMon 6 6 SPECIES_WHISMUR; mkMon 7 7 SPECIES_WHISMUR; mkMon 7 7 SPECIES_WHISMUR; mkMon 5 5 SPECIES_WHISMUR; mkMon 8 8 SPECIES_WHISMUR; mkMon 5 5 SPECIES_WHISMUR; mkMon 8 8 SPECIES_WHISMUR; mkMon 5 5 SPECIES_WHISMUR; mkMon 8 8 SPECIES_WHISMUR]))
     None
     None
     None;
   mkEnc "MAP_GRANITE_CAVE_1F" "gGraniteCave_1F"
     (Some (mkMons 10 [mkMon 7 7 SPECIES_ZUBAT; mkMon 8 8 SPECIES_MAKUHITA; mkMon 7 7 SPECIES_MAKUHITA; mkMon 8 8 SPECIES_ZUBAT; mkMon 9 9 SPECIES_MAKUHITA; mkMon 8 8 SPECIES_ABRA; mkMon 10 10 SPECIES_MAKUHITA; mkMon 6 6 SPECIES_MAKUHITA; mkMon 7 7 SPECIES_GEODUDE; mkMon 8 8 SPECIES_GEODUDE; mkMon 6 6 SPECIES_GEODUDE; mkMon 9 9 SPECIES_GEODUDE]))
     None
     None
     None;
   mkEnc "MAP_GRANITE_CAVE_B1F" "gGraniteCave_B1F"
     (Some (mkMons 10 [mkMon 9 9 SPECIES_ZUBAT; mkMon 10 10 SPECIES_ARON; mkMon 9 9 SPECIES_ARON; mkMon 11 11 SPECIES_ARON; mkMon 10 10 SPECIES_ZUBAT; mkMon 9 9 SPECIES_ABRA; mkMon 10 10 SPECIES_MAKUHITA; mkMon 11 11 SPECIES_MAKUHITA; mkMon 10 10 SPECIES_SABLEYE; mkMon 10 10 SPECIES_SABLEYE; mkMon 9 9 SPECIES_SABLEYE; mkMon 11 11 SPECIES_SABLEYE]))
     None
     None
     None;
   mkEnc "MAP_MT_PYRE_1F" "gMtPyre_1F"
     (Some (mkMons 10 [mkMon 27 27 SPECIES_SHUPPET; mkMon 28 28 SPECIES_SHUPPET; mkMon 26 26 SPECIES_SHUPPET; mkMon 25 25 SPECIES_SHUPPET; mkMon 29 29 SPECIES_SHUPPET; mkMon 24 24 SPECIES_SHUPPET; mkMon 23 23 SPECIES_SHUPPET; mkMon 22 22 SPECIES_SHUPPET; mkMon 29 29 SPECIES_SHUPPET; mkMon 24 24 SPECIES_SHUPPET; mkMon 29 29 SPECIES_SHUPPET; mkMon 24 24 SPECIES_SHUPPET]))
     None
     None
     None;
   mkEnc "MAP_VICTORY_ROAD_1F" "gVictoryRoad_1F"
     (Some (mkMons 10 [mkMon 40 40 SPECIES_GOLBAT; mkMon 40 40 SPECIES_HARIYAMA; mkMon 40 40 SPECIES_LAIRON; mkMon 40 40 SPECIES_LOUDRED; mkMon 36 36 SPECIES_ZUBAT; mkMon 36 36 SPECIES_MAKUHITA; mkMon 38 38 SPECIES_GOLBAT; mkMon 38 38 SPECIES_HARIYAMA; mkMon 36 36 SPECIES_ARON; mkMon 36 36 SPECIES_WHISMUR; mkMon 36 36 SPECIES_ARON; mkMon 36 36 SPECIES_WHISMUR]))
     None
     None
     None;
   mkEnc "MAP_SAFARI_ZONE_SOUTH" "gSafariZone_South"
     (Some (mkMons 25 [mkMon 25 25 SPECIES_ODDISH; mkMon 27 27 SPECIES_ODDISH; mkMon 25 25 SPECIES_GIRAFARIG; mkMon 27 27 SPECIES_GIRAFARIG; mkMon 25 25 SPECIES_NATU; mkMon 25 25 SPECIES_DODUO; mkMon 25 25 SPECIES_GLOOM; mkMon 27 27 SPECIES_WOBBUFFET; mkMon 25 25 SPECIES_PIKACHU; mkMon 27 27 SPECIES_WOBBUFFET; mkMon 27 27 SPECIES_PIKACHU; mkMon 29 29 SPECIES_WOBBUFFET]))
     None
     None
     None;
   mkEnc "MAP_UNDERWATER_ROUTE126" "gUnderwater_Route126"
     None
     (Some (mkMons 4 [mkMon 20 30 SPECIES_CLAMPERL; mkMon 20 30 SPECIES_CHINCHOU; mkMon 30 35 SPECIES_CLAMPERL; mkMon 30 35 SPECIES_RELICANTH; mkMon 30 35 SPECIES_RELICANTH]))
     None
     None;
   mkEnc "MAP_ABANDONED_SHIP_ROOMS_B1F" "gAbandonedShip_Rooms_B1F"
     None
     (Some (mkMons 4 [mkMon 5 35 SPECIES_TENTACOOL; mkMon 5 35 SPECIES_TENTACOOL; mkMon 5 35 SPECIES_TENTACOOL; mkMon 5 35 SPECIES_TENTACOOL; mkMon 30 35 SPECIES_TENTACRUEL]))
     None
     (Some (mkMons 20 [mkMon 5 10 SPECIES_MAGIKARP; mkMon 5 10 SPECIES_TENTACOOL; mkMon 10 30 SPECIES_MAGIKARP; mkMon 10 30 SPECIES_TENTACOOL; mkMon 10 30 SPECIES_TENTACOOL; mkMon 25 30 SPECIES_TENTACOOL; mkMon 30 35 SPECIES_TENTACOOL; mkMon 30 35 SPECIES_TENTACRUEL; mkMon 25 30 SPECIES_TENTACRUEL; mkMon 20 25 SPECIES_TENTACRUEL]));
   mkEnc "MAP_GRANITE_CAVE_B2F" "gGraniteCave_B2F"
     (Some (mkMons 10 [mkMon 10 10 SPECIES_ZUBAT; mkMon 11 11 SPECIES_ARON; mkMon 10 10 SPECIES_ARON; mkMon 11 11 SPECIES_ZUBAT; mkMon 12 12 SPECIES_ARON; mkMon 10 10 SPECIES_ABRA; mkMon 10 10 SPECIES_SABLEYE; mkMon 11 11 SPECIES_SABLEYE; mkMon 12 12 SPECIES_SABLEYE; mkMon 10 10 SPECIES_SABLEYE; mkMon 12 12 SPECIES_SABLEYE; mkMon 10 10 SPECIES_SABLEYE]))
     None
     (Some (mkMons 20 [mkMon 10 15 SPECIES_GEODUDE; mkMon 10 20 SPECIES_NOSEPASS; mkMon 5 10 SPECIES_GEODUDE; mkMon 15 20 SPECIES_GEODUDE; mkMon 15 20 SPECIES_GEODUDE]))
     None;
   mkEnc "MAP_FIERY_PATH" "gFieryPath"
     (Some (mkMons 10 [mkMon 15 15 SPECIES_NUMEL; mkMon 15 15 SPECIES_KOFFING; mkMon 16 16 SPECIES_NUMEL; mkMon 15 15 SPECIES_MACHOP; mkMon 15 15 SPECIES_TORKOAL; mkMon 15 15 SPECIES_SLUGMA; mkMon 16 16 SPECIES_KOFFING; mkMon 16 16 SPECIES_MACHOP; mkMon 14 14 SPECIES_TORKOAL; mkMon 16 16 SPECIES_TORKOAL; mkMon 14 14 SPECIES_GRIMER; mkMon 14 14 SPECIES_GRIMER]))
     None
     None
     None;
   mkEnc "MAP_METEOR_FALLS_B1F_2R" "gMeteorFalls_B1F_2R"
     (Some (mkMons 10 [mkMon 33 33 SPECIES_GOLBAT; mkMon 35 35 SPECIES_GOLBAT; mkMon 30 30 SPECIES_BAGON; mkMon 35 35 SPECIES_SOLROCK; mkMon 35 35 SPECIES_BAGON; mkMon 37 37 SPECIES_SOLROCK; mkMon 25 25 SPECIES_BAGON; mkMon 39 39 SPECIES_SOLROCK; mkMon 38 38 SPECIES_GOLBAT; mkMon 40 40 SPECIES_GOLBAT; mkMon 38 38 SPECIES_GOLBAT; mkMon 40 40 SPECIES_GOLBAT]))
     (Some (mkMons 4 [mkMon 30 35 SPECIES_GOLBAT; mkMon 30 35 SPECIES_GOLBAT; mkMon 25 35 SPECIES_SOLROCK; mkMon 15 25 SPECIES_SOLROCK; mkMon 5 15 SPECIES_SOLROCK]))
     None
     (Some (mkMons 30 [mkMon 5 10 SPECIES_MAGIKARP; mkMon 5 10 SPECIES_GOLDEEN; mkMon 10 30 SPECIES_MAGIKARP; mkMon 10 30 SPECIES_GOLDEEN; mkMon 10 30 SPECIES_BARBOACH; mkMon 25 30 SPECIES_BARBOACH; mkMon 30 35 SPECIES_BARBOACH; mkMon 30 35 SPECIES_WHISCASH; mkMon 35 40 SPECIES_WHISCASH; mkMon 40 45 SPECIES_WHISCASH]));
   mkEnc "MAP_JAGGED_PASS" "gJaggedPass"
     (Some (mkMons 20 [mkMon 21 21 SPECIES_NUMEL; mkMon 21 21 SPECIES_NUMEL; mkMon 21 21 SPECIES_MACHOP; mkMon 20 20 SPECIES_NUMEL; mkMon 20 20 SPECIES_SPOINK; mkMon 20 20 SPECIES_MACHOP; mkMon 21 21 SPECIES_SPOINK; mkMon 22 22 SPECIES_MACHOP; mkMon 22 22 SPECIES_NUMEL; mkMon 22 22 SPECIES_SPOINK; mkMon 22 22 SPECIES_NUMEL; mkMon 22 22 SPECIES_SPOINK]))
     None
     None
     None;
   mkEnc "MAP_ROUTE106" "gRoute106"
     None
     (Some (mkMons 4 [mkMon 5 35 SPECIES_TENTACOOL; mkMon 10 30 SPECIES_WINGULL; mkMon 15 25 SPECIES_WINGULL; mkMon 25 30 SPECIES_PELIPPER; mkMon 25 30 SPECIES_PELIPPER]))
     None
     (Some (mkMons 30 [mkMon 5 10 SPECIES_MAGIKARP; mkMon 5 10 SPECIES_TENTACOOL; mkMon 10 30 SPECIES_MAGIKARP; mkMon 10 30 SPECIES_TENTACOOL; mkMon 10 30 SPECIES_WAILMER; mkMon 25 30 SPECIES_WAILMER; mkMon 30 35 SPECIES_WAILMER; mkMon 20 25 SPECIES_WAILMER; mkMon 35 40 SPECIES_WAILMER; mkMon 40 45 SPECIES_WAILMER]));
   mkEnc "MAP_ROUTE107" "gRoute107"
     None
     (Some (mkMons 4 [mkMon 5 35 SPECIES_TENTACOOL; mkMon 10 30 SPECIES_WINGULL; mkMon 15 25 SPECIES_WINGULL; mkMon 25 30 SPECIES_PELIPPER; mkMon 25 30 SPECIES_PELIPPER]))
     None
     (Some (mkMons 30 [mkMon 5 10 SPECIES_MAGIKARP; mkMon 5 10 SPECIES_TENTACOOL; mkMon 10 30 SPECIES_MAGIKARP; mkMon 10 30 SPECIES_TENTACOOL; mkMon 10 30 SPECIES_WAILMER; mkMon 25 30 SPECIES_WAILMER; mkMon 30 35 SPECIES_WAILMER; mkMon 20 25 SPECIES_WAILMER; mkMon 35 40 SPECIES_WAILMER; mkMon 40 45 SPECIES_WAILMER]));
   mkEnc "MAP_ROUTE108" "gRoute108"
     None
     (Some (mkMons 4 [mkMon 5 35 SPECIES_TENTACOOL; mkMon 10 30 SPECIES_WINGULL; mkMon 15 25 SPECIES_WINGULL; mkMon 25 30 SPECIES_PELIPPER; mkMon 25 30 SPECIES_PELIPPER]))
     None
     (Some (mkMons 30 [mkMon 5 10 SPECIES_MAGIKARP; mkMon 5 10 SPECIES_TENTACOOL; mkMon 10 30 SPECIES_MAGIKARP; mkMon 10 30 SPECIES_TENTACOOL; mkMon 10 30 SPECIES_WAILMER; mkMon 25 30 SPECIES_WAILMER; mkMon 30 35 SPECIES_WAILMER; mkMon 20 25 SPECIES_WAILMER; mkMon 35 40 SPECIES_WAILMER; mkMon 40 45 SPECIES_WAILMER]));
   mkEnc "MAP_ROUTE109" "gRoute109"
     None
     (Some (mkMons 4 [mkMon 5 35 SPECIES_TENTACOOL; mkMon 10 30 SPECIES_WINGULL; mkMon 15 25 SPECIES_WINGULL; mkMon 25 30 SPECIES_PELIPPER; mkMon 25 30 SPECIES_PELIPPER]))
     None
     (Some (mkMons 30 [mkMon 5 10 SPECIES_MAGIKARP; mkMon 5 10 SPECIES_TENTACOOL; mkMon 10 30 SPECIES_MAGIKARP; mkMon 10 30 SPECIES_TENTACOOL; mkMon 10 30 SPECIES_WAILMER; mkMon 25 30 SPECIES_WAILMER; mkMon 30 35 SPECIES_WAILMER; mkMon 20 25 SPECIES_WAILMER; mkMon 35 40 SPECIES_WAILMER; mkMon 40 45 SPECIES_WAILMER]));
   mkEnc "MAP_ROUTE115" "gRoute115"
     (Some (mkMons 20 [mkMon 23 23 SPECIES_SWABLU; mkMon 23 23 SPECIES_TAILLOW; mkMon 25 25 SPECIES_SWABLU; mkMon 24 24 SPECIES_TAILLOW; mkMon 25 25 SPECIES_TAILLOW; mkMon 25 25 SPECIES_SWELLOW; mkMon 24 24 SPECIES_JIGGLYPUFF; mkMon 25 25 SPECIES_JIGGLYPUFF; mkMon 24 24 SPECIES_WINGULL; mkMon 24 24 SPECIES_WINGULL; mkMon 26 26 SPECIES_WINGULL; mkMon 25 25 SPECIES_WINGULL]))
     (Some (mkMons 4 [mkMon 5 35 SPECIES_TENTACOOL; mkMon 10 30 SPECIES_WINGULL; mkMon 15 25 SPECIES_WINGULL; mkMon 25 30 SPECIES_PELIPPER; mkMon 25 30 SPECIES_PELIPPER]))
     None
     (Some (mkMons 30 [mkMon 5 10 SPECIES_MAGIKARP; mkMon 5 10 SPECIES_TENTACOOL; mkMon 10 30 SPECIES_MAGIKARP; mkMon 10 30 SPECIES_TENTACOOL; mkMon 10 30 SPECIES_WAILMER; mkMon 25 30 SPECIES_WAILMER; mkMon 30 35 SPECIES_WAILMER; mkMon 20 25 SPECIES_WAILMER; mkMon 35 40 SPECIES_WAILMER; mkMon 40 45 SPECIES_WAILMER]));
   mkEnc "MAP_NEW_MAUVILLE_INSIDE" "gNewMauville_Inside"
     (Some (mkMons 10 [mkMon 24 24 SPECIES_VOLTORB; mkMon 24 24 SPECIES_MAGNEMITE; mkMon 25 25 SPECIES_VOLTORB; mkMon 25 25 SPECIES_MAGNEMITE; mkMon 23 23 SPECIES_VOLTORB; mkMon 23 23 SPECIES_MAGNEMITE; mkMon 26 26 SPECIES_VOLTORB; mkMon 26 26 SPECIES_MAGNEMITE; mkMon 22 22 SPECIES_VOLTORB; mkMon 22 22 SPECIES_MAGNEMITE; mkMon 26 26 SPECIES_ELECTRODE; mkMon 26 26 SPECIES_MAGNETON]))
     None
     None
     None;
   mkEnc "MAP_ROUTE119" "gRoute119"
     (Some (mkMons 15 [mkMon 25 25 SPECIES_ZIGZAGOON; mkMon 25 25 SPECIES_LINOONE; mkMon 27 27 SPECIES_ZIGZAGOON; mkMon 25 25 SPECIES_ODDISH; mkMon 27 27 SPECIES_LINOONE; mkMon 26 26 SPECIES_ODDISH; mkMon 27 27 SPECIES_ODDISH; mkMon 24 24 SPECIES_ODDISH; mkMon 25 25 SPECIES_TROPIUS; mkMon 26 26 SPECIES_TROPIUS; mkMon 27 27 SPECIES_TROPIUS; mkMon 25 25 SPECIES_KECLEON]))
     (Some (mkMons 4 [mkMon 5 35 SPECIES_TENTACOOL; mkMon 10 30 SPECIES_WINGULL; mkMon 15 25 SPECIES_WINGULL; mkMon 25 30 SPECIES_PELIPPER; mkMon 25 30 SPECIES_PELIPPER]))
     None
     (Some (mkMons 30 [mkMon 5 10 SPECIES_MAGIKARP; mkMon 5 10 SPECIES_TENTACOOL; mkMon 10 30 SPECIES_MAGIKARP; mkMon 10 30 SPECIES_TENTACOOL; mkMon 10 30 SPECIES_CARVANHA; mkMon 25 30 SPECIES_CARVANHA; mkMon 30 35 SPECIES_CARVANHA; mkMon 20 25 SPECIES_CARVANHA; mkMon 35 40 SPECIES_CARVANHA; mkMon 40 45 SPECIES_CARVANHA]));
   mkEnc "MAP_ROUTE120" "gRoute120"
     (Some (mkMons 20 [mkMon 25 25 SPECIES_POOCHYENA; mkMon 25 25 SPECIES_MIGHTYENA; mkMon 27 27 SPECIES_MIGHTYENA; mkMon 25 25 SPECIES_ODDISH; mkMon 25 25 SPECIES_MARILL; mkMon 26 26 SPECIES_ODDISH; mkMon 27 27 SPECIES_ODDISH; mkMon 27 27 SPECIES_MARILL; mkMon 25 25 SPECIES_ABSOL; mkMon 27 27 SPECIES_ABSOL; mkMon 25 25 SPECIES_KECLEON; mkMon 25 25 SPECIES_SEEDOT]))
     (Some (mkMons 4 [mkMon 20 30 SPECIES_MARILL; mkMon 10 20 SPECIES_MARILL; mkMon 30 35 SPECIES_MARILL; mkMon 5 10 SPECIES_MARILL; mkMon 20 30 SPECIES_GOLDEEN]))
     None
     (Some (mkMons 30 [mkMon 5 10 SPECIES_MAGIKARP; mkMon 5 10 SPECIES_GOLDEEN; mkMon 10 30 SPECIES_MAGIKARP; mkMon 10 30 SPECIES_GOLDEEN; mkMon 10 30 SPECIES_BARBOACH; mkMon 25 30 SPECIES_BARBOACH; mkMon 30 35 SPECIES_BARBOACH; mkMon 20 25 SPECIES_BARBOACH; mkMon 35 40 SPECIES_BARBOACH; mkMon 40 45 SPECIES_BARBOACH]));
   mkEnc "MAP_ROUTE121" "gRoute121"
     (Some (mkMons 20 [mkMon 26 26 SPECIES_POOCHYENA; mkMon 26 26 SPECIES_SHUPPET; mkMon 26 26 SPECIES_MIGHTYENA; mkMon 28 28 SPECIES_SHUPPET; mkMon 28 28 SPECIES_MIGHTYENA; mkMon 26 26 SPECIES_ODDISH; mkMon 28 28 SPECIES_ODDISH; mkMon 28 28 SPECIES_GLOOM; mkMon 26 26 SPECIES_WINGULL; mkMon 27 27 SPECIES_WINGULL; mkMon 28 28 SPECIES_WINGULL; mkMon 25 25 SPECIES_KECLEON]))
     (Some (mkMons 4 [mkMon 5 35 SPECIES_TENTACOOL; mkMon 10 30 SPECIES_WINGULL; mkMon 15 25 SPECIES_WINGULL; mkMon 25 30 SPECIES_PELIPPER; mkMon 25 30 SPECIES_PELIPPER]))
     None
     (Some (mkMons 30 [mkMon 5 10 SPECIES_MAGIKARP; mkMon 5 10 SPECIES_TENTACOOL; mkMon 10 30 SPECIES_MAGIKARP; mkMon 10 30 SPECIES_TENTACOOL; mkMon 10 30 SPECIES_WAILMER; mkMon 25 30 SPECIES_WAILMER; mkMon 30 35 SPECIES_WAILMER; mkMon 20 25 SPECIES_WAILMER; mkMon 35 40 SPECIES_WAILMER; mkMon 40 45 SPECIES_WAILMER]));
   mkEnc "MAP_ROUTE122" "gRoute122"
     None
     (Some (mkMons 4 [mkMon 5 35 SPECIES_TENTACOOL; mkMon 10 30 SPECIES_WINGULL; mkMon 15 25 SPECIES_WINGULL; mkMon 25 30 SPECIES_PELIPPER; mkMon 25 30 SPECIES_PELIPPER]))
     None
     (Some (mkMons 30 [mkMon 5 10 SPECIES_MAGIKARP; mkMon 5 10 SPECIES_TENTACOOL; mkMon 10 30 SPECIES_MAGIKARP; mkMon 10 30 SPECIES_TENTACOOL; mkMon 10 30 SPECIES_WAILMER; mkMon 30 35 SPECIES_SHARPEDO; mkMon 30 35 SPECIES_WAILMER; mkMon 25 30 SPECIES_WAILMER; mkMon 35 40 SPECIES_WAILMER; mkMon 40 45 SPECIES_WAILMER]));
   mkEnc "MAP_ROUTE123" "gRoute123"
     (Some (mkMons 20 [mkMon 26 26 SPECIES_POOCHYENA; mkMon 26 26 SPECIES_SHUPPET; mkMon 26 26 SPECIES_MIGHTYENA; mkMon 28 28 SPECIES_SHUPPET; mkMon 28 28 SPECIES_MIGHTYENA; mkMon 26 26 SPECIES_ODDISH; mkMon 28 28 SPECIES_ODDISH; mkMon 28 28 SPECIES_GLOOM; mkMon 26 26 SPECIES_WINGULL; mkMon 27 27 SPECIES_WINGULL; mkMon 28 28 SPECIES_WINGULL; mkMon 25 25 SPECIES_KECLEON]))
     (Some (mkMons 4 [mkMon 5 35 SPECIES_TENTACOOL; mkMon 10 30 SPECIES_WINGULL; mkMon 15 25 SPECIES_WINGULL; mkMon 25 30 SPECIES_PELIPPER; mkMon 25 30 SPECIES_PELIPPER]))
     None
     (Some (mkMons 30 [mkMon 5 10 SPECIES_MAGIKARP; mkMon 5 10 SPECIES_TENTACOOL; mkMon 10 30 SPECIES_MAGIKARP; mkMon 10 30 SPECIES_TENTACOOL; mkMon 10 30 SPECIES_WAILMER; mkMon 25 30 SPECIES_WAILMER; mkMon 30 35 SPECIES_WAILMER; mkMon 20 25 SPECIES_WAILMER; mkMon 35 40 SPECIES_WAILMER; mkMon 40 45 SPECIES_WAILMER]));
   mkEnc "MAP_MT_PYRE_2F" "gMtPyre_2F"
     (Some (mkMons 10 [mkMon 27 27 SPECIES_SHUPPET; mkMon 28 28 SPECIES_SHUPPET; mkMon 26 26 SPECIES_SHUPPET; mkMon 25 25 SPECIES_SHUPPET; mkMon 29 29 SPECIES_SHUPPET; mkMon 24 24 SPECIES_SHUPPET; mkMon 23 23 SPECIES_SHUPPET; mkMon 22 22 SPECIES_SHUPPET; mkMon 29 29 SPECIES_SHUPPET; mkMon 24 24 SPECIES_SHUPPET; mkMon 29 29 SPECIES_SHUPPET; mkMon 24 24 SPECIES_SHUPPET]))
     None
     None
     None;
   mkEnc "MAP_MT_PYRE_3F" "gMtPyre_3F"
     (Some (mkMons 10 [mkMon 27 27 SPECIES_SHUPPET; mkMon 28 28 SPECIES_SHUPPET; mkMon 26 26 SPECIES_SHUPPET; mkMon 25 25 SPECIES_SHUPPET; mkMon 29 29 SPECIES_SHUPPET; mkMon 24 24 SPECIES_SHUPPET; mkMon 23 23 SPECIES_SHUPPET; mkMon 22 22 SPECIES_SHUPPET; mkMon 29 29 SPECIES_SHUPPET; mkMon 24 24 SPECIES_SHUPPET; mkMon 29 29 SPECIES_SHUPPET; mkMon 24 24 SPECIES_SHUPPET]))
     None
     None
     None;
   mkEnc "MAP_MT_PYRE_4F" "gMtPyre_4F"
     (Some (mkMons 10 [mkMon 27 27 SPECIES_SHUPPET; mkMon 28 28 SPECIES_SHUPPET; mkMon 26 26 SPECIES_SHUPPET; mkMon 25 25 SPECIES_SHUPPET; mkMon 29 29 SPECIES_SHUPPET; mkMon 24 24 SPECIES_SHUPPET; mkMon 23 23 SPECIES_SHUPPET; mkMon 22 22 SPECIES_SHUPPET; mkMon 27 27 SPECIES_DUSKULL; mkMon 27 27 SPECIES_DUSKULL; mkMon 25 25 SPECIES_DUSKULL; mkMon 29 29 SPECIES_DUSKULL]))
     None
     None
     None;
   mkEnc "MAP_MT_PYRE_5F" "gMtPyre_5F"
     (Some (mkMons 10 [mkMon 27 27 SPECIES_SHUPPET; mkMon 28 28 SPECIES_SHUPPET; mkMon 26 26 SPECIES_SHUPPET; mkMon 25 25 SPECIES_SHUPPET; mkMon 29 29 SPECIES_SHUPPET; mkMon 24 24 SPECIES_SHUPPET; mkMon 23 23 SPECIES_SHUPPET; mkMon 22 22 SPECIES_SHUPPET; mkMon 27 27 SPECIES_DUSKULL; mkMon 27 27 SPECIES_DUSKULL; mkMon 25 25 SPECIES_DUSKULL; mkMon 29 29 SPECIES_DUSKULL]))
     None
     None
     None;
   mkEnc "MAP_MT_PYRE_6F" "gMtPyre_6F"
     (Some (mkMons 10 [mkMon 27 27 SPECIES_SHUPPET; mkMon 28 28 SPECIES_SHUPPET; mkMon 26 26 SPECIES_SHUPPET; mkMon 25 25 SPECIES_SHUPPET; mkMon 29 29 SPECIES_SHUPPET; mkMon 24 24 SPECIES_SHUPPET; mkMon 23 23 SPECIES_SHUPPET; mkMon 22 22 SPECIES_SHUPPET; mkMon 27 27 SPECIES_DUSKULL; mkMon 27 27 SPECIES_DUSKULL; mkMon 25 25 SPECIES_DUSKULL; mkMon 29 29 SPECIES_DUSKULL]))
     None
     None
     None;
   mkEnc "MAP_MT_PYRE_EXTERIOR" "gMtPyre_Exterior"
     (Some (mkMons 10 [mkMon 27 27 SPECIES_SHUPPET; mkMon 27 27 SPECIES_SHUPPET; mkMon 28 28 SPECIES_SHUPPET; mkMon 29 29 SPECIES_SHUPPET; mkMon 29 29 SPECIES_VULPIX; mkMon 27 27 SPECIES_VULPIX; mkMon 29 29 SPECIES_VULPIX; mkMon 25 25 SPECIES_VULPIX; mkMon 27 27 SPECIES_WINGULL; mkMon 27 27 SPECIES_WINGULL; mkMon 26 26 SPECIES_WINGULL; mkMon 28 28 SPECIES_WINGULL]))
     None
     None
     None;
   mkEnc "MAP_MT_PYRE_SUMMIT" "gMtPyre_Summit"
     (Some (mkMons 10 [mkMon 28 28 SPECIES_SHUPPET; mkMon 29 29 SPECIES_SHUPPET; mkMon 27 27 SPECIES_SHUPPET; mkMon 26 26 SPECIES_SHUPPET; mkMon 30 30 SPECIES_SHUPPET; mkMon 25 25 SPECIES_SHUPPET; mkMon 24 24 SPECIES_SHUPPET; mkMon 28 28 SPECIES_DUSKULL; mkMon 26 26 SPECIES_DUSKULL; mkMon 30 30 SPECIES_DUSKULL; mkMon 28 28 SPECIES_CHIMECHO; mkMon 28 28 SPECIES_CHIMECHO]))
     None
     None
     None;
   mkEnc "MAP_GRANITE_CAVE_STEVENS_ROOM" "gGraniteCave_StevensRoom"
     (Some (mkMons 10 [mkMon 7 7 SPECIES_ZUBAT; mkMon 8 8 SPECIES_MAKUHITA; mkMon 7 7 SPECIES_MAKUHITA; mkMon 8 8 SPECIES_ZUBAT; mkMon 9 9 SPECIES_MAKUHITA; mkMon 8 8 SPECIES_ABRA; mkMon 10 10 SPECIES_MAKUHITA; mkMon 6 6 SPECIES_MAKUHITA; mkMon 7 7 SPECIES_ARON; mkMon 8 8 SPECIES_ARON; mkMon 7 7 SPECIES_ARON; mkMon 8 8 SPECIES_ARON]))
     None
     None
     None;
   mkEnc "MAP_ROUTE125" "gRoute125"
     None
     (Some (mkMons 4 [mkMon 5 35 SPECIES_TENTACOOL; mkMon 10 30 SPECIES_WINGULL; mkMon 15 25 SPECIES_WINGULL; mkMon 25 30 SPECIES_PELIPPER; mkMon 25 30 SPECIES_PELIPPER]))
     None
     (Some (mkMons 30 [mkMon 5 10 SPECIES_MAGIKARP; mkMon 5 10 SPECIES_TENTACOOL; mkMon 10 30 SPECIES_MAGIKARP; mkMon 10 30 SPECIES_TENTACOOL; mkMon 10 30 SPECIES_WAILMER; mkMon 30 35 SPECIES_SHARPEDO; mkMon 30 35 SPECIES_WAILMER; mkMon 25 30 SPECIES_WAILMER; mkMon 35 40 SPECIES_WAILMER; mkMon 40 45 SPECIES_WAILMER]));
   mkEnc "MAP_ROUTE126" "gRoute126"
     None
     (Some (mkMons 4 [mkMon 5 35 SPECIES_TENTACOOL; mkMon 10 30 SPECIES_WINGULL; mkMon 15 25 SPECIES_WINGULL; mkMon 25 30 SPECIES_PELIPPER; mkMon 25 30 SPECIES_PELIPPER]))
     None
     (Some (mkMons 30 [mkMon 5 10 SPECIES_MAGIKARP; mkMon 5 10 SPECIES_TENTACOOL; mkMon 10 30 SPECIES_MAGIKARP; mkMon 10 30 SPECIES_TENTACOOL; mkMon 10 30 SPECIES_WAILMER; mkMon 30 35 SPECIES_SHARPEDO; mkMon 30 35 SPECIES_WAILMER; mkMon 25 30 SPECIES_WAILMER; mkMon 35 40 SPECIES_WAILMER; mkMon 40 45 SPECIES_WAILMER]));
   mkEnc "MAP_ROUTE127" "gRoute127"
     None
     (Some (mkMons 4 [mkMon 5 35 SPECIES_TENTACOOL; mkMon 10 30 SPECIES_WINGULL; mkMon 15 25 SPECIES_WINGULL; mkMon 25 30 SPECIES_PELIPPER; mkMon 25 30 SPECIES_PELIPPER]))
     None
     (Some (mkMons 30 [mkMon 5 10 SPECIES_MAGIKARP; mkMon 5 10 SPECIES_TENTACOOL; mkMon 10 30 SPECIES_MAGIKARP; mkMon 10 30 SPECIES_TENTACOOL; mkMon 10 30 SPECIES_WAILMER; mkMon 30 35 SPECIES_SHARPEDO; mkMon 30 35 SPECIES_WAILMER; mkMon 25 30 SPECIES_WAILMER; mkMon 35 40 SPECIES_WAILMER; mkMon 40 45 SPECIES_WAILMER]));
   mkEnc "MAP_ROUTE128" "gRoute128"
     None
     (Some (mkMons 4 [mkMon 5 35 SPECIES_TENTACOOL; mkMon 10 30 SPECIES_WINGULL; mkMon 15 25 SPECIES_WINGULL; mkMon 25 30 SPECIES_PELIPPER; mkMon 25 30 SPECIES_PELIPPER]))
     None
     (Some (mkMons 30 [mkMon 5 10 SPECIES_MAGIKARP; mkMon 5 10 SPECIES_TENTACOOL; mkMon 10 30 SPECIES_MAGIKARP; mkMon 10 30 SPECIES_LUVDISC; mkMon 10 30 SPECIES_WAILMER; mkMon 30 35 SPECIES_LUVDISC; mkMon 30 35 SPECIES_WAILMER; mkMon 30 35 SPECIES_CORSOLA; mkMon 35 40 SPECIES_WAILMER; mkMon 40 45 SPECIES_WAILMER]));
   mkEnc "MAP_ROUTE129" "gRoute129"
     None
     (Some (mkMons 4 [mkMon 5 35 SPECIES_TENTACOOL; mkMon 10 30 SPECIES_WINGULL; mkMon 15 25 SPECIES_WINGULL; mkMon 25 30 SPECIES_PELIPPER; mkMon 25 30 SPECIES_WAILORD]))
     None
     (Some (mkMons 30 [mkMon 5 10 SPECIES_MAGIKARP; mkMon 5 10 SPECIES_TENTACOOL; mkMon 10 30 SPECIES_MAGIKARP; mkMon 10 30 SPECIES_TENTACOOL; mkMon 10 30 SPECIES_WAILMER; mkMon 30 35 SPECIES_SHARPEDO; mkMon 30 35 SPECIES_WAILMER; mkMon 25 30 SPECIES_WAILMER; mkMon 35 40 SPECIES_WAILMER; mkMon 40 45 SPECIES_WAILMER]));
   mkEnc "MAP_ROUTE130" "gRoute130"
     (Some (mkMons 20 [mkMon 30 30 SPECIES_WYNAUT; mkMon 35 35 SPECIES_WYNAUT; mkMon 25 25 SPECIES_WYNAUT; mkMon 40 40 SPECIES_WYNAUT; mkMon 20 20 SPECIES_WYNAUT; mkMon 45 45 SPECIES_WYNAUT; mkMon 15 15 SPECIES_WYNAUT; mkMon 50 50 SPECIES_WYNAUT; mkMon 10 10 SPECIES_WYNAUT; mkMon 5 5 SPECIES_WYNAUT; mkMon 10 10 SPECIES_WYNAUT; mkMon 5 5 SPECIES_WYNAUT]))
     (Some (mkMons 4 [mkMon 5 35 SPECIES_TENTACOOL; mkMon 10 30 SPECIES_WINGULL; mkMon 15 25 SPECIES_WINGULL; mkMon 25 30 SPECIES_PELIPPER; mkMon 25 30 SPECIES_PELIPPER]))
     None
     (Some (mkMons 30 [mkMon 5 10 SPECIES_MAGIKARP; mkMon 5 10 SPECIES_TENTACOOL; mkMon 10 30 SPECIES_MAGIKARP; mkMon 10 30 SPECIES_TENTACOOL; mkMon 10 30 SPECIES_WAILMER; mkMon 30 35 SPECIES_SHARPEDO; mkMon 30 35 SPECIES_WAILMER; mkMon 25 30 SPECIES_WAILMER; mkMon 35 40 SPECIES_WAILMER; mkMon 40 45 SPECIES_WAILMER]));
   mkEnc "MAP_ROUTE131" "gRoute131"
     None
     (Some (mkMons 4 [mkMon 5 35 SPECIES_TENTACOOL; mkMon 10 30 SPECIES_WINGULL; mkMon 15 25 SPECIES_WINGULL; mkMon 25 30 SPECIES_PELIPPER; mkMon 25 30 SPECIES_PELIPPER]))
     None
     (Some (mkMons 30 [mkMon 5 10 SPECIES_MAGIKARP; mkMon 5 10 SPECIES_TENTACOOL; mkMon 10 30 SPECIES_MAGIKARP; mkMon 10 30 SPECIES_TENTACOOL; mkMon 10 30 SPECIES_WAILMER; mkMon 30 35 SPECIES_SHARPEDO; mkMon 30 35 SPECIES_WAILMER; mkMon 25 30 SPECIES_WAILMER; mkMon 35 40 SPECIES_WAILMER; mkMon 40 45 SPECIES_WAILMER]));
   mkEnc "MAP_ROUTE132" "gRoute132"
     None
     (Some (mkMons 4 [mkMon 5 35 SPECIES_TENTACOOL; mkMon 10 30 SPECIES_WINGULL; mkMon 15 25 SPECIES_WINGULL; mkMon 25 30 SPECIES_PELIPPER; mkMon 25 30 SPECIES_PELIPPER]))
     None
     (Some (mkMons 30 [mkMon 5 10 SPECIES_MAGIKARP; mkMon 5 10 SPECIES_TENTACOOL; mkMon 10 30 SPECIES_MAGIKARP; mkMon 10 30 SPECIES_TENTACOOL; mkMon 10 30 SPECIES_WAILMER; mkMon 30 35 SPECIES_SHARPEDO; mkMon 30 35 SPECIES_WAILMER; mkMon 25 30 SPECIES_HORSEA; mkMon 35 40 SPECIES_WAILMER; mkMon 40 45 SPECIES_WAILMER]));
   mkEnc "MAP_ROUTE133" "gRoute133"
     None
     (Some (mkMons 4 [mkMon 5 35 SPECIES_TENTACOOL; mkMon 10 30 SPECIES_WINGULL; mkMon 15 25 SPECIES_WINGULL; mkMon 25 30 SPECIES_PELIPPER; mkMon 25 30 SPECIES_PELIPPER]))
     None
     (Some (mkMons 30 [mkMon 5 10 SPECIES_MAGIKARP; mkMon 5 10 SPECIES_TENTACOOL; mkMon 10 30 SPECIES_MAGIKARP; mkMon 10 30 SPECIES_TENTACOOL; mkMon 10 30 SPECIES_WAILMER; mkMon 30 35 SPECIES_SHARPEDO; mkMon 30 35 SPECIES_WAILMER; mkMon 25 30 SPECIES_HORSEA; mkMon 35 40 SPECIES_WAILMER; mkMon 40 45 SPECIES_WAILMER]));
   mkEnc "MAP_ROUTE134" "gRoute134"
     None
     (Some (mkMons 4 [mkMon 5 35 SPECIES_TENTACOOL; mkMon 10 30 SPECIES_WINGULL; mkMon 15 25 SPECIES_WINGULL; mkMon 25 30 SPECIES_PELIPPER; mkMon 25 30 SPECIES_PELIPPER]))
     None
     (Some (mkMons 30 [mkMon 5 10 SPECIES_MAGIKARP; mkMon 5 10 SPECIES_TENTACOOL; mkMon 10 30 SPECIES_MAGIKARP; mkMon 10 30 SPECIES_TENTACOOL; mkMon 10 30 SPECIES_WAILMER; mkMon 30 35 SPECIES_SHARPEDO; mkMon 30 35 SPECIES_WAILMER; mkMon 25 30 SPECIES_HORSEA; mkMon 35 40 SPECIES_WAILMER; mkMon 40 45 SPECIES_WAILMER]));
   mkEnc "MAP_ABANDONED_SHIP_HIDDEN_FLOOR_CORRIDORS" "gAbandonedShip_HiddenFloorCorridors"
     None
     (Some (mkMons 4 [mkMon 5 35 SPECIES_TENTACOOL; mkMon 5 35 SPECIES_TENTACOOL; mkMon 5 35 SPECIES_TENTACOOL; mkMon 5 35 SPECIES_TENTACOOL; mkMon 30 35 SPECIES_TENTACRUEL]))
     None
     (Some (mkMons 20 [mkMon 5 10 SPECIES_MAGIKARP; mkMon 5 10 SPECIES_TENTACOOL; mkMon 10 30 SPECIES_MAGIKARP; mkMon 10 30 SPECIES_TENTACOOL; mkMon 10 30 SPECIES_TENTACOOL; mkMon 25 30 SPECIES_TENTACOOL; mkMon 30 35 SPECIES_TENTACOOL; mkMon 30 35 SPECIES_TENTACRUEL; mkMon 25 30 SPECIES_TENTACRUEL; mkMon 20 25 SPECIES_TENTACRUEL]));
   mkEnc "MAP_SEAFLOOR_CAVERN_ROOM1" "gSeafloorCavern_Room1"
     (Some (mkMons 4 [mkMon 30 30 SPECIES_ZUBAT; mkMon 31 31 SPECIES_ZUBAT; mkMon 32 32 SPECIES_ZUBAT; mkMon 33 33 SPECIES_ZUBAT; mkMon 28 28 SPECIES_ZUBAT; mkMon 29 29 SPECIES_ZUBAT; mkMon 34 34 SPECIES_ZUBAT; mkMon 35 35 SPECIES_ZUBAT; mkMon 34 34 SPECIES_GOLBAT; mkMon 35 35 SPECIES_GOLBAT; mkMon 33 33 SPECIES_GOLBAT; mkMon 36 36 SPECIES_GOLBAT]))
     None
     None
     None;
   mkEnc "MAP_SEAFLOOR_CAVERN_ROOM2" "gSeafloorCavern_Room2"
     (Some (mkMons 4 [mkMon 30 30 SPECIES_ZUBAT; mkMon 31 31 SPECIES_ZUBAT; mkMon 32 32 SPECIES_ZUBAT; mkMon 33 33 SPECIES_ZUBAT; mkMon 28 28 SPECIES_ZUBAT; mkMon 29 29 SPECIES_ZUBAT; mkMon 34 34 SPECIES_ZUBAT; mkMon 35 35 SPECIES_ZUBAT; mkMon 34 34 SPECIES_GOLBAT; mkMon 35 35 SPECIES_GOLBAT; mkMon 33 33 SPECIES_GOLBAT; mkMon 36 36 SPECIES_GOLBAT]))
     None
     None
     None;
   mkEnc "MAP_SEAFLOOR_CAVERN_ROOM3" "gSeafloorCavern_Room3"
     (Some (mkMons 4 [mkMon 30 30 SPECIES_ZUBAT; mkMon 31 31 SPECIES_ZUBAT; mkMon 32 32 SPECIES_ZUBAT; mkMon 33 33 SPECIES_ZUBAT; mkMon 28 28 SPECIES_ZUBAT; mkMon 29 29 SPECIES_ZUBAT; mkMon 34 34 SPECIES_ZUBAT; mkMon 35 35 SPECIES_ZUBAT; mkMon 34 34 SPECIES_GOLBAT; mkMon 35 35 SPECIES_GOLBAT; mkMon 33 33 SPECIES_GOLBAT; mkMon 36 36 SPECIES_GOLBAT]))
     None
     None
     None;
   mkEnc "MAP_SEAFLOOR_CAVERN_ROOM4" "gSeafloorCavern_Room4"
     (Some (mkMons 4 [mkMon 30 30 SPECIES_ZUBAT; mkMon 31 31 SPECIES_ZUBAT; mkMon 32 32 SPECIES_ZUBAT; mkMon 33 33 SPECIES_ZUBAT; mkMon 28 28 SPECIES_ZUBAT; mkMon 29 29 SPECIES_ZUBAT; mkMon 34 34 SPECIES_ZUBAT; mkMon 35 35 SPECIES_ZUBAT; mkMon 34 34 SPECIES_GOLBAT; mkMon 35 35 SPECIES_GOLBAT; mkMon 33 33 SPECIES_GOLBAT; mkMon 36 36 SPECIES_GOLBAT]))
     None
     None
     None;
   mkEnc "MAP_SEAFLOOR_CAVERN_ROOM5" "gSeafloorCavern_Room5"
     (Some (mkMons 4 [mkMon 30 30 SPECIES_ZUBAT; mkMon 31 31 SPECIES_ZUBAT; mkMon 32 32 SPECIES_ZUBAT; mkMon 33 33 SPECIES_ZUBAT; mkMon 28 28 SPECIES_ZUBAT; mkMon 29 29 SPECIES_ZUBAT; mkMon 34 34 SPECIES_ZUBAT; mkMon 35 35 SPECIES_ZUBAT; mkMon 34 34 SPECIES_GOLBAT; mkMon 35 35 SPECIES_GOLBAT; mkMon 33 33 SPECIES_GOLBAT; mkMon 36 36 SPECIES_GOLBAT]))
     None
     None
     None;
   mkEnc "MAP_SEAFLOOR_CAVERN_ROOM6" "gSeafloorCavern_Room6"
     (Some (mkMons 4 [mkMon 30 30 SPECIES_ZUBAT; mkMon 31 31 SPECIES_ZUBAT; mkMon 32 32 SPECIES_ZUBAT; mkMon 33 33 SPECIES_ZUBAT; mkMon 28 28 SPECIES_ZUBAT; mkMon 29 29 SPECIES_ZUBAT; mkMon 34 34 SPECIES_ZUBAT; mkMon 35 35 SPECIES_ZUBAT; mkMon 34 34 SPECIES_GOLBAT; mkMon 35 35 SPECIES_GOLBAT; mkMon 33 33 SPECIES_GOLBAT; mkMon 36 36 SPECIES_GOLBAT]))
     (Some (mkMons 4 [mkMon 5 35 SPECIES_TENTACOOL; mkMon 5 35 SPECIES_ZUBAT; mkMon 30 35 SPECIES_ZUBAT; mkMon 30 35 SPECIES_GOLBAT; mkMon 30 35 SPECIES_GOLBAT]))
     None
     (Some (mkMons 10 [mkMon 5 10 SPECIES_MAGIKARP; mkMon 5 10 SPECIES_TENTACOOL; mkMon 10 30 SPECIES_MAGIKARP; mkMon 10 30 SPECIES_TENTACOOL; mkMon 10 30 SPECIES_WAILMER; mkMon 25 30 SPECIES_WAILMER; mkMon 30 35 SPECIES_WAILMER; mkMon 20 25 SPECIES_WAILMER; mkMon 35 40 SPECIES_WAILMER; mkMon 40 45 SPECIES_WAILMER]));
   mkEnc "MAP_SEAFLOOR_CAVERN_ROOM7" "gSeafloorCavern_Room7"
     (Some (mkMons 4 [mkMon 30 30 SPECIES_ZUBAT; mkMon 31 31 SPECIES_ZUBAT; mkMon 32 32 SPECIES_ZUBAT; mkMon 33 33 SPECIES_ZUBAT; mkMon 28 28 SPECIES_ZUBAT; mkMon 29 29 SPECIES_ZUBAT; mkMon 34 34 SPECIES_ZUBAT; mkMon 35 35 SPECIES_ZUBAT; mkMon 34 34 SPECIES_GOLBAT; mkMon 35 35 SPECIES_GOLBAT; mkMon 33 33 SPECIES_GOLBAT; mkMon 36 36 SPECIES_GOLBAT]))
     (Some (mkMons 4 [mkMon 5 35 SPECIES_TENTACOOL; mkMon 5 35 SPECIES_ZUBAT; mkMon 30 35 SPECIES_ZUBAT; mkMon 30 35 SPECIES_GOLBAT; mkMon 30 35 SPECIES_GOLBAT]))
     None
     (Some (mkMons 10 [mkMon 5 10 SPECIES_MAGIKARP; mkMon 5 10 SPECIES_TENTACOOL; mkMon 10 30 SPECIES_MAGIKARP; mkMon 10 30 SPECIES_TENTACOOL; mkMon 10 30 SPECIES_WAILMER; mkMon 25 30 SPECIES_WAILMER; mkMon 30 35 SPECIES_WAILMER; mkMon 20 25 SPECIES_WAILMER; mkMon 35 40 SPECIES_WAILMER; mkMon 40 45 SPECIES_WAILMER]));
   mkEnc "MAP_SEAFLOOR_CAVERN_ROOM8" "gSeafloorCavern_Room8"
     (Some (mkMons 4 [mkMon 30 30 SPECIES_ZUBAT; mkMon 31 31 SPECIES_ZUBAT; mkMon 32 32 SPECIES_ZUBAT; mkMon 33 33 SPECIES_ZUBAT; mkMon 28 28 SPECIES_ZUBAT; mkMon 29 29 SPECIES_ZUBAT; mkMon 34 34 SPECIES_ZUBAT; mkMon 35 35 SPECIES_ZUBAT; mkMon 34 34 SPECIES_GOLBAT; mkMon 35 35 SPECIES_GOLBAT; mkMon 33 33 SPECIES_GOLBAT; mkMon 36 36 SPECIES_GOLBAT]))
     None
     None
     None;
   mkEnc "MAP_SEAFLOOR_CAVERN_ENTRANCE" "gSeafloorCavern_Entrance"
     None
     (Some (mkMons 4 [mkMon 5 35 SPECIES_TENTACOOL; mkMon 5 35 SPECIES_ZUBAT; mkMon 30 35 SPECIES_ZUBAT; mkMon 30 35 SPECIES_GOLBAT; mkMon 30 35 SPECIES_GOLBAT]))
     None
     (Some (mkMons 10 [mkMon 5 10 SPECIES_MAGIKARP; mkMon 5 10 SPECIES_TENTACOOL; mkMon 10 30 SPECIES_MAGIKARP; mkMon 10 30 SPECIES_TENTACOOL; mkMon 10 30 SPECIES_WAILMER; mkMon 25 30 SPECIES_WAILMER; mkMon 30 35 SPECIES_WAILMER; mkMon 20 25 SPECIES_WAILMER; mkMon 35 40 SPECIES_WAILMER; mkMon 40 45 SPECIES_WAILMER]));
   mkEnc "MAP_CAVE_OF_ORIGIN_ENTRANCE" "gCaveOfOrigin_Entrance"
     (Some (mkMons 4 [mkMon 30 30 SPECIES_ZUBAT; mkMon 31 31 SPECIES_ZUBAT; mkMon 32 32 SPECIES_ZUBAT; mkMon 33 33 SPECIES_ZUBAT; mkMon 28 28 SPECIES_ZUBAT; mkMon 29 29 SPECIES_ZUBAT; mkMon 34 34 SPECIES_ZUBAT; mkMon 35 35 SPECIES_ZUBAT; mkMon 34 34 SPECIES_GOLBAT; mkMon 35 35 SPECIES_GOLBAT; mkMon 33 33 SPECIES_GOLBAT; mkMon 36 36 SPECIES_GOLBAT]))
     None
     None
     None;
   mkEnc "MAP_CAVE_OF_ORIGIN_1F" "gCaveOfOrigin_1F"
     (Some (mkMons 4 [mkMon 30 30 SPECIES_ZUBAT; mkMon 31 31 SPECIES_ZUBAT; mkMon 32 32 SPECIES_ZUBAT; mkMon 30 30 SPECIES_SABLEYE; mkMon 32 32 SPECIES_SABLEYE; mkMon 34 34 SPECIES_SABLEYE; mkMon 33 33 SPECIES_ZUBAT; mkMon 34 34 SPECIES_ZUBAT; mkMon 34 34 SPECIES_GOLBAT; mkMon 35 35 SPECIES_GOLBAT; mkMon 33 33 SPECIES_GOLBAT; mkMon 36 36 SPECIES_GOLBAT]))
     None
     None
     None;
   mkEnc "MAP_CAVE_OF_ORIGIN_UNUSED_RUBY_SAPPHIRE_MAP1" "gCaveOfOrigin_UnusedRubySapphireMap1"
     (Some (mkMons 4 [mkMon 30 30 SPECIES_ZUBAT; mkMon 31 31 SPECIES_ZUBAT; mkMon 32 32 SPECIES_ZUBAT; mkMon 30 30 SPECIES_SABLEYE; mkMon 32 32 SPECIES_SABLEYE; mkMon 34 34 SPECIES_SABLEYE; mkMon 33 33 SPECIES_ZUBAT; mkMon 34 34 SPECIES_ZUBAT; mkMon 34 34 SPECIES_GOLBAT; mkMon 35 35 SPECIES_GOLBAT; mkMon 33 33 SPECIES_GOLBAT; mkMon 36 36 SPECIES_GOLBAT]))
     None
     None
     None;
   mkEnc "MAP_CAVE_OF_ORIGIN_UNUSED_RUBY_SAPPHIRE_MAP2" "gCaveOfOrigin_UnusedRubySapphireMap2"
     (Some (mkMons 4 [mkMon 30 30 SPECIES_ZUBAT; mkMon 31 31 SPECIES_ZUBAT; mkMon 32 32 SPECIES_ZUBAT; mkMon 30 30 SPECIES_SABLEYE; mkMon 32 32 SPECIES_SABLEYE; mkMon 34 34 SPECIES_SABLEYE; mkMon 33 33 SPECIES_ZUBAT; mkMon 34 34 SPECIES_ZUBAT; mkMon 34 34 SPECIES_GOLBAT; mkMon 35 35 SPECIES_GOLBAT; mkMon 33 33 SPECIES_GOLBAT; mkMon 36 36 SPECIES_GOLBAT]))
     None
     None
     None;
   mkEnc "MAP_CAVE_OF_ORIGIN_UNUSED_RUBY_SAPPHIRE_MAP3" "gCaveOfOrigin_UnusedRubySapphireMap3"
     (Some (mkMons 4 [mkMon 30 30 SPECIES_ZUBAT; mkMon 31 31 SPECIES_ZUBAT; mkMon 32 32 SPECIES_ZUBAT; mkMon 30 30 SPECIES_SABLEYE; mkMon 32 32 SPECIES_SABLEYE; mkMon 34 34 SPECIES_SABLEYE; mkMon 33 33 SPECIES_ZUBAT; mkMon 34 34 SPECIES_ZUBAT; mkMon 34 34 SPECIES_GOLBAT; mkMon 35 35 SPECIES_GOLBAT; mkMon 33 33 SPECIES_GOLBAT; mkMon 36 36 SPECIES_GOLBAT]))
     None
     None
     None;
   mkEnc "MAP_NEW_MAUVILLE_ENTRANCE" "gNewMauville_Entrance"
     (Some (mkMons 10 [mkMon 24 24 SPECIES_VOLTORB; mkMon 24 24 SPECIES_MAGNEMITE; mkMon 25 25 SPECIES_VOLTORB; mkMon 25 25 SPECIES_MAGNEMITE; mkMon 23 23 SPECIES_VOLTORB; mkMon 23 23 SPECIES_MAGNEMITE; mkMon 26 26 SPECIES_VOLTORB; mkMon 26 26 SPECIES_MAGNEMITE; mkMon 22 22 SPECIES_VOLTORB; mkMon 22 22 SPECIES_MAGNEMITE; mkMon 22 22 SPECIES_VOLTORB; mkMon 22 22 SPECIES_MAGNEMITE]))
     None
     None
     None;
   mkEnc "MAP_SAFARI_ZONE_SOUTHWEST" "gSafariZone_Southwest"
     (Some (mkMons 25 [mkMon 25 25 SPECIES_ODDISH; mkMon 27 27 SPECIES_ODDISH; mkMon 25 25 SPECIES_GIRAFARIG; mkMon 27 27 SPECIES_GIRAFARIG; mkMon 25 25 SPECIES_NATU; mkMon 27 27 SPECIES_DODUO; mkMon 25 25 SPECIES_GLOOM; mkMon 27 27 SPECIES_WOBBUFFET; mkMon 25 25 SPECIES_PIKACHU; mkMon 27 27 SPECIES_WOBBUFFET; mkMon 27 27 SPECIES_PIKACHU; mkMon 29 29 SPECIES_WOBBUFFET]))
     (Some (mkMons 9 [mkMon 20 30 SPECIES_PSYDUCK; mkMon 20 30 SPECIES_PSYDUCK; mkMon 30 35 SPECIES_PSYDUCK; mkMon 30 35 SPECIES_PSYDUCK; mkMon 30 35 SPECIES_PSYDUCK]))
     None
     (Some (mkMons 35 [mkMon 5 10 SPECIES_MAGIKARP; mkMon 5 10 SPECIES_GOLDEEN; mkMon 10 30 SPECIES_MAGIKARP; mkMon 10 25 SPECIES_GOLDEEN; mkMon 10 30 SPECIES_GOLDEEN; mkMon 25 30 SPECIES_GOLDEEN; mkMon 30 35 SPECIES_GOLDEEN; mkMon 30 35 SPECIES_SEAKING; mkMon 35 40 SPECIES_SEAKING; mkMon 25 30 SPECIES_SEAKING]));
   mkEnc "MAP_SAFARI_ZONE_NORTH" "gSafariZone_North"
     (Some (mkMons 25 [mkMon 27 27 SPECIES_PHANPY; mkMon 27 27 SPECIES_ODDISH; mkMon 29 29 SPECIES_PHANPY; mkMon 29 29 SPECIES_ODDISH; mkMon 27 27 SPECIES_NATU; mkMon 29 29 SPECIES_GLOOM; mkMon 31 31 SPECIES_GLOOM; mkMon 29 29 SPECIES_NATU; mkMon 29 29 SPECIES_XATU; mkMon 27 27 SPECIES_HERACROSS; mkMon 31 31 SPECIES_XATU; mkMon 29 29 SPECIES_HERACROSS]))
     None
     (Some (mkMons 25 [mkMon 10 15 SPECIES_GEODUDE; mkMon 5 10 SPECIES_GEODUDE; mkMon 15 20 SPECIES_GEODUDE; mkMon 20 25 SPECIES_GEODUDE; mkMon 25 30 SPECIES_GEODUDE]))
     None;
   mkEnc "MAP_SAFARI_ZONE_NORTHWEST" "gSafariZone_Northwest"
     (Some (mkMons 25 [mkMon 27 27 SPECIES_RHYHORN; mkMon 27 27 SPECIES_ODDISH; mkMon 29 29 SPECIES_RHYHORN; mkMon 29 29 SPECIES_ODDISH; mkMon 27 27 SPECIES_DODUO; mkMon 29 29 SPECIES_GLOOM; mkMon 31 31 SPECIES_GLOOM; mkMon 29 29 SPECIES_DODUO; mkMon 29 29 SPECIES_DODRIO; mkMon 27 27 SPECIES_PINSIR; mkMon 31 31 SPECIES_DODRIO; mkMon 29 29 SPECIES_PINSIR]))
     (Some (mkMons 9 [mkMon 20 30 SPECIES_PSYDUCK; mkMon 20 30 SPECIES_PSYDUCK; mkMon 30 35 SPECIES_PSYDUCK; mkMon 30 35 SPECIES_GOLDUCK; mkMon 25 40 SPECIES_GOLDUCK]))
     None
     (Some (mkMons 35 [mkMon 5 10 SPECIES_MAGIKARP; mkMon 5 10 SPECIES_GOLDEEN; mkMon 10 30 SPECIES_MAGIKARP; mkMon 10 25 SPECIES_GOLDEEN; mkMon 10 30 SPECIES_GOLDEEN; mkMon 25 30 SPECIES_GOLDEEN; mkMon 30 35 SPECIES_GOLDEEN; mkMon 30 35 SPECIES_SEAKING; mkMon 35 40 SPECIES_SEAKING; mkMon 25 30 SPECIES_SEAKING]));
   mkEnc "MAP_VICTORY_ROAD_B1F" "gVictoryRoad_B1F"
     (Some (mkMons 10 [mkMon 40 40 SPECIES_GOLBAT; mkMon 40 40 SPECIES_HARIYAMA; mkMon 40 40 SPECIES_LAIRON; mkMon 40 40 SPECIES_LAIRON; mkMon 38 38 SPECIES_GOLBAT; mkMon 38 38 SPECIES_HARIYAMA; mkMon 42 42 SPECIES_GOLBAT; mkMon 42 42 SPECIES_HARIYAMA; mkMon 42 42 SPECIES_LAIRON; mkMon 38 38 SPECIES_MAWILE; mkMon 42 42 SPECIES_LAIRON; mkMon 38 38 SPECIES_MAWILE]))
     None
     (Some (mkMons 20 [mkMon 30 40 SPECIES_GRAVELER; mkMon 30 40 SPECIES_GEODUDE; mkMon 35 40 SPECIES_GRAVELER; mkMon 35 40 SPECIES_GRAVELER; mkMon 35 40 SPECIES_GRAVELER]))
     None;
   mkEnc "MAP_VICTORY_ROAD_B2F" "gVictoryRoad_B2F"
     (Some (mkMons 10 [mkMon 40 40 SPECIES_GOLBAT; mkMon 40 40 SPECIES_SABLEYE; mkMon 40 40 SPECIES_LAIRON; mkMon 40 40 SPECIES_LAIRON; mkMon 42 42 SPECIES_GOLBAT; mkMon 42 42 SPECIES_SABLEYE; mkMon 44 44 SPECIES_GOLBAT; mkMon 44 44 SPECIES_SABLEYE; mkMon 42 42 SPECIES_LAIRON; mkMon 42 42 SPECIES_MAWILE; mkMon 44 44 SPECIES_LAIRON; mkMon 44 44 SPECIES_MAWILE]))
     (Some (mkMons 4 [mkMon 30 35 SPECIES_GOLBAT; mkMon 25 30 SPECIES_GOLBAT; mkMon 35 40 SPECIES_GOLBAT; mkMon 35 40 SPECIES_GOLBAT; mkMon 35 40 SPECIES_GOLBAT]))
     None
     (Some (mkMons 30 [mkMon 5 10 SPECIES_MAGIKARP; mkMon 5 10 SPECIES_GOLDEEN; mkMon 10 30 SPECIES_MAGIKARP; mkMon 10 30 SPECIES_GOLDEEN; mkMon 10 30 SPECIES_BARBOACH; mkMon 25 30 SPECIES_BARBOACH; mkMon 30 35 SPECIES_BARBOACH; mkMon 30 35 SPECIES_WHISCASH; mkMon 35 40 SPECIES_WHISCASH; mkMon 40 45 SPECIES_WHISCASH]));
   mkEnc "MAP_METEOR_FALLS_1F_1R" "gMeteorFalls_1F_1R"
     (Some (mkMons 10 [mkMon 16 16 SPECIES_ZUBAT; mkMon 17 17 SPECIES_ZUBAT; mkMon 18 18 SPECIES_ZUBAT; mkMon 15 15 SPECIES_ZUBAT; mkMon 14 14 SPECIES_ZUBAT; mkMon 16 16 SPECIES_SOLROCK; mkMon 18 18 SPECIES_SOLROCK; mkMon 14 14 SPECIES_SOLROCK; mkMon 19 19 SPECIES_ZUBAT; mkMon 20 20 SPECIES_ZUBAT; mkMon 19 19 SPECIES_ZUBAT; mkMon 20 20 SPECIES_ZUBAT]))
     (Some (mkMons 4 [mkMon 5 35 SPECIES_ZUBAT; mkMon 30 35 SPECIES_ZUBAT; mkMon 25 35 SPECIES_SOLROCK; mkMon 15 25 SPECIES_SOLROCK; mkMon 5 15 SPECIES_SOLROCK]))
     None
     (Some (mkMons 30 [mkMon 5 10 SPECIES_MAGIKARP; mkMon 5 10 SPECIES_GOLDEEN; mkMon 10 30 SPECIES_MAGIKARP; mkMon 10 30 SPECIES_GOLDEEN; mkMon 10 30 SPECIES_BARBOACH; mkMon 25 30 SPECIES_BARBOACH; mkMon 30 35 SPECIES_BARBOACH; mkMon 20 25 SPECIES_BARBOACH; mkMon 35 40 SPECIES_BARBOACH; mkMon 40 45 SPECIES_BARBOACH]));
   mkEnc "MAP_METEOR_FALLS_1F_2R" "gMeteorFalls_1F_2R"
     (Some (mkMons 10 [mkMon 33 33 SPECIES_GOLBAT; mkMon 35 35 SPECIES_GOLBAT; mkMon 33 33 SPECIES_GOLBAT; mkMon 35 35 SPECIES_SOLROCK; mkMon 33 33 SPECIES_SOLROCK; mkMon 37 37 SPECIES_SOLROCK; mkMon 35 35 SPECIES_GOLBAT; mkMon 39 39 SPECIES_SOLROCK; mkMon 38 38 SPECIES_GOLBAT; mkMon 40 40 SPECIES_GOLBAT; mkMon 38 38 SPECIES_GOLBAT; mkMon 40 40 SPECIES_GOLBAT]))
     (Some (mkMons 4 [mkMon 30 35 SPECIES_GOLBAT; mkMon 30 35 SPECIES_GOLBAT; mkMon 25 35 SPECIES_SOLROCK; mkMon 15 25 SPECIES_SOLROCK; mkMon 5 15 SPECIES_SOLROCK]))
     None
     (Some (mkMons 30 [mkMon 5 10 SPECIES_MAGIKARP; mkMon 5 10 SPECIES_GOLDEEN; mkMon 10 30 SPECIES_MAGIKARP; mkMon 10 30 SPECIES_GOLDEEN; mkMon 10 30 SPECIES_BARBOACH; mkMon 25 30 SPECIES_BARBOACH; mkMon 30 35 SPECIES_BARBOACH; mkMon 30 35 SPECIES_WHISCASH; mkMon 35 40 SPECIES_WHISCASH; mkMon 40 45 SPECIES_WHISCASH]));
   mkEnc "MAP_METEOR_FALLS_B1F_1R" "gMeteorFalls_B1F_1R"
     (Some (mkMons 10 [mkMon 33 33 SPECIES_GOLBAT; mkMon 35 35 SPECIES_GOLBAT; mkMon 33 33 SPECIES_GOLBAT; mkMon 35 35 SPECIES_SOLROCK; mkMon 33 33 SPECIES_SOLROCK; mkMon 37 37 SPECIES_SOLROCK; mkMon 35 35 SPECIES_GOLBAT; mkMon 39 39 SPECIES_SOLROCK; mkMon 38 38 SPECIES_GOLBAT; mkMon 40 40 SPECIES_GOLBAT; mkMon 38 38 SPECIES_GOLBAT; mkMon 40 40 SPECIES_GOLBAT]))
     (Some (mkMons 4 [mkMon 30 35 SPECIES_GOLBAT; mkMon 30 35 SPECIES_GOLBAT; mkMon 25 35 SPECIES_SOLROCK; mkMon 15 25 SPECIES_SOLROCK; mkMon 5 15 SPECIES_SOLROCK]))
     None
     (Some (mkMons 30 [mkMon 5 10 SPECIES_MAGIKARP; mkMon 5 10 SPECIES_GOLDEEN; mkMon 10 30 SPECIES_MAGIKARP; mkMon 10 30 SPECIES_GOLDEEN; mkMon 10 30 SPECIES_BARBOACH; mkMon 25 30 SPECIES_BARBOACH; mkMon 30 35 SPECIES_BARBOACH; mkMon 30 35 SPECIES_WHISCASH; mkMon 35 40 SPECIES_WHISCASH; mkMon 40 45 SPECIES_WHISCASH]));
   mkEnc "MAP_SHOAL_CAVE_LOW_TIDE_STAIRS_ROOM" "gShoalCave_LowTideStairsRoom"
     (Some (mkMons 10 [mkMon 26 26 SPECIES_ZUBAT; mkMon 26 26 SPECIES_SPHEAL; mkMon 28 28 SPECIES_ZUBAT; mkMon 28 28 SPECIES_SPHEAL; mkMon 30 30 SPECIES_ZUBAT; mkMon 30 30 SPECIES_SPHEAL; mkMon 32 32 SPECIES_ZUBAT; mkMon 32 32 SPECIES_SPHEAL; mkMon 32 32 SPECIES_GOLBAT; mkMon 32 32 SPECIES_SPHEAL; mkMon 32 32 SPECIES_GOLBAT; mkMon 32 32 SPECIES_SPHEAL]))
     None
     None
     None;
   mkEnc "MAP_SHOAL_CAVE_LOW_TIDE_LOWER_ROOM" "gShoalCave_LowTideLowerRoom"
     (Some (mkMons 10 [mkMon 26 26 SPECIES_ZUBAT; mkMon 26 26 SPECIES_SPHEAL; mkMon 28 28 SPECIES_ZUBAT; mkMon 28 28 SPECIES_SPHEAL; mkMon 30 30 SPECIES_ZUBAT; mkMon 30 30 SPECIES_SPHEAL; mkMon 32 32 SPECIES_ZUBAT; mkMon 32 32 SPECIES_SPHEAL; mkMon 32 32 SPECIES_GOLBAT; mkMon 32 32 SPECIES_SPHEAL; mkMon 32 32 SPECIES_GOLBAT; mkMon 32 32 SPECIES_SPHEAL]))
     None
     None
     None;
   mkEnc "MAP_SHOAL_CAVE_LOW_TIDE_INNER_ROOM" "gShoalCave_LowTideInnerRoom"
     (Some (mkMons 10 [mkMon 26 26 SPECIES_ZUBAT; mkMon 26 26 SPECIES_SPHEAL; mkMon 28 28 SPECIES_ZUBAT; mkMon 28 28 SPECIES_SPHEAL; mkMon 30 30 SPECIES_ZUBAT; mkMon 30 30 SPECIES_SPHEAL; mkMon 32 32 SPECIES_ZUBAT; mkMon 32 32 SPECIES_SPHEAL; mkMon 32 32 SPECIES_GOLBAT; mkMon 32 32 SPECIES_SPHEAL; mkMon 32 32 SPECIES_GOLBAT; mkMon 32 32 SPECIES_SPHEAL]))
     (Some (mkMons 4 [mkMon 5 35 SPECIES_TENTACOOL; mkMon 5 35 SPECIES_ZUBAT; mkMon 25 30 SPECIES_SPHEAL; mkMon 25 30 SPECIES_SPHEAL; mkMon 25 35 SPECIES_SPHEAL]))
     None
     (Some (mkMons 10 [mkMon 5 10 SPECIES_MAGIKARP; mkMon 5 10 SPECIES_TENTACOOL; mkMon 10 30 SPECIES_MAGIKARP; mkMon 10 30 SPECIES_TENTACOOL; mkMon 10 30 SPECIES_WAILMER; mkMon 25 30 SPECIES_WAILMER; mkMon 30 35 SPECIES_WAILMER; mkMon 20 25 SPECIES_WAILMER; mkMon 35 40 SPECIES_WAILMER; mkMon 40 45 SPECIES_WAILMER]));
   mkEnc "MAP_SHOAL_CAVE_LOW_TIDE_ENTRANCE_ROOM" "gShoalCave_LowTideEntranceRoom"
     (Some (mkMons 10 [mkMon 26 26 SPECIES_ZUBAT; mkMon 26 26 SPECIES_SPHEAL; mkMon 28 28 SPECIES_ZUBAT; mkMon 28 28 SPECIES_SPHEAL; mkMon 30 30 SPECIES_ZUBAT; mkMon 30 30 SPECIES_SPHEAL; mkMon 32 32 SPECIES_ZUBAT; mkMon 32 32 SPECIES_SPHEAL; mkMon 32 32 SPECIES_GOLBAT; mkMon 32 32 SPECIES_SPHEAL; mkMon 32 32 SPECIES_GOLBAT; mkMon 32 32 SPECIES_SPHEAL]))
     (Some (mkMons 4 [mkMon 5 35 SPECIES_TENTACOOL; mkMon 5 35 SPECIES_ZUBAT; mkMon 25 30 SPECIES_SPHEAL; mkMon 25 30 SPECIES_SPHEAL; mkMon 25 35 SPECIES_SPHEAL]))
     None
     (Some (mkMons 10 [mkMon 5 10 SPECIES_MAGIKARP; mkMon 5 10 SPECIES_TENTACOOL; mkMon 10 30 SPECIES_MAGIKARP; mkMon 10 30 SPECIES_TENTACOOL; mkMon 10 30 SPECIES_WAILMER; mkMon 25 30 SPECIES_WAILMER; mkMon 30 35 SPECIES_WAILMER; mkMon 20 25 SPECIES_WAILMER; mkMon 35 40 SPECIES_WAILMER; mkMon 40 45 SPECIES_WAILMER]));
   mkEnc "MAP_LILYCOVE_CITY" "gLilycoveCity"
     None
     (Some (mkMons 4 [mkMon 5 35 SPECIES_TENTACOOL; mkMon 10 30 SPECIES_WINGULL; mkMon 15 25 SPECIES_WINGULL; mkMon 25 30 SPECIES_PELIPPER; mkMon 25 30 SPECIES_PELIPPER]))
     None
     (Some (mkMons 10 [mkMon 5 10 SPECIES_MAGIKARP; mkMon 5 10 SPECIES_TENTACOOL; mkMon 10 30 SPECIES_MAGIKARP; mkMon 10 30 SPECIES_TENTACOOL; mkMon 10 30 SPECIES_WAILMER; mkMon 25 30 SPECIES_WAILMER; mkMon 30 35 SPECIES_WAILMER; mkMon 25 30 SPECIES_STARYU; mkMon 35 40 SPECIES_WAILMER; mkMon 40 45 SPECIES_WAILMER]));
   mkEnc "MAP_DEWFORD_TOWN" "gDewfordTown"
     None
     (Some (mkMons 4 [mkMon 5 35 SPECIES_TENTACOOL; mkMon 10 30 SPECIES_WINGULL; mkMon 15 25 SPECIES_WINGULL; mkMon 25 30 SPECIES_PELIPPER; mkMon 25 30 SPECIES_PELIPPER]))
     None
     (Some (mkMons 10 [mkMon 5 10 SPECIES_MAGIKARP; mkMon 5 10 SPECIES_TENTACOOL; mkMon 10 30 SPECIES_MAGIKARP; mkMon 10 30 SPECIES_TENTACOOL; mkMon 10 30 SPECIES_WAILMER; mkMon 25 30 SPECIES_WAILMER; mkMon 30 35 SPECIES_WAILMER; mkMon 20 25 SPECIES_WAILMER; mkMon 35 40 SPECIES_WAILMER; mkMon 40 45 SPECIES_WAILMER]));
   mkEnc "MAP_SLATEPORT_CITY" "gSlateportCity"
     None
     (Some (mkMons 4 [mkMon 5 35 SPECIES_TENTACOOL; mkMon 10 30 SPECIES_WINGULL; mkMon 15 25 SPECIES_WINGULL; mkMon 25 30 SPECIES_PELIPPER; mkMon 25 30 SPECIES_PELIPPER]))
     None
     (Some (mkMons 10 [mkMon 5 10 SPECIES_MAGIKARP; mkMon 5 10 SPECIES_TENTACOOL; mkMon 10 30 SPECIES_MAGIKARP; mkMon 10 30 SPECIES_TENTACOOL; mkMon 10 30 SPECIES_WAILMER; mkMon 25 30 SPECIES_WAILMER; mkMon 30 35 SPECIES_WAILMER; mkMon 20 25 SPECIES_WAILMER; mkMon 35 40 SPECIES_WAILMER; mkMon 40 45 SPECIES_WAILMER]));
   mkEnc "MAP_MOSSDEEP_CITY" "gMossdeepCity"
     None
     (Some (mkMons 4 [mkMon 5 35 SPECIES_TENTACOOL; mkMon 10 30 SPECIES_WINGULL; mkMon 15 25 SPECIES_WINGULL; mkMon 25 30 SPECIES_PELIPPER; mkMon 25 30 SPECIES_PELIPPER]))
     None
     (Some (mkMons 10 [mkMon 5 10 SPECIES_MAGIKARP; mkMon 5 10 SPECIES_TENTACOOL; mkMon 10 30 SPECIES_MAGIKARP; mkMon 10 30 SPECIES_TENTACOOL; mkMon 10 30 SPECIES_WAILMER; mkMon 30 35 SPECIES_SHARPEDO; mkMon 30 35 SPECIES_WAILMER; mkMon 25 30 SPECIES_WAILMER; mkMon 35 40 SPECIES_WAILMER; mkMon 40 45 SPECIES_WAILMER]));
   mkEnc "MAP_PACIFIDLOG_TOWN" "gPacifidlogTown"
     None
     (Some (mkMons 4 [mkMon 5 35 SPECIES_TENTACOOL; mkMon 10 30 SPECIES_WINGULL; mkMon 15 25 SPECIES_WINGULL; mkMon 25 30 SPECIES_PELIPPER; mkMon 25 30 SPECIES_PELIPPER]))
     None
     (Some (mkMons 10 [mkMon 5 10 SPECIES_MAGIKARP; mkMon 5 10 SPECIES_TENTACOOL; mkMon 10 30 SPECIES_MAGIKARP; mkMon 10 30 SPECIES_TENTACOOL; mkMon 10 30 SPECIES_WAILMER; mkMon 30 35 SPECIES_SHARPEDO; mkMon 30 35 SPECIES_WAILMER; mkMon 25 30 SPECIES_WAILMER; mkMon 35 40 SPECIES_WAILMER; mkMon 40 45 SPECIES_WAILMER]));
   mkEnc "MAP_EVER_GRANDE_CITY" "gEverGrandeCity"
     None
     (Some (mkMons 4 [mkMon 5 35 SPECIES_TENTACOOL; mkMon 10 30 SPECIES_WINGULL; mkMon 15 25 SPECIES_WINGULL; mkMon 25 30 SPECIES_PELIPPER; mkMon 25 30 SPECIES_PELIPPER]))
     None
     (Some (mkMons 10 [mkMon 5 10 SPECIES_MAGIKARP; mkMon 5 10 SPECIES_TENTACOOL; mkMon 10 30 SPECIES_MAGIKARP; mkMon 10 30 SPECIES_LUVDISC; mkMon 10 30 SPECIES_WAILMER; mkMon 30 35 SPECIES_LUVDISC; mkMon 30 35 SPECIES_WAILMER; mkMon 30 35 SPECIES_CORSOLA; mkMon 35 40 SPECIES_WAILMER; mkMon 40 45 SPECIES_WAILMER]));
   mkEnc "MAP_PETALBURG_CITY" "gPetalburgCity"
     None
     (Some (mkMons 1 [mkMon 20 30 SPECIES_MARILL; mkMon 10 20 SPECIES_MARILL; mkMon 30 35 SPECIES_MARILL; mkMon 5 10 SPECIES_MARILL; mkMon 5 10 SPECIES_MARILL]))
     None
     (Some (mkMons 10 [mkMon 5 10 SPECIES_MAGIKARP; mkMon 5 10 SPECIES_GOLDEEN; mkMon 10 30 SPECIES_MAGIKARP; mkMon 10 30 SPECIES_GOLDEEN; mkMon 10 30 SPECIES_CORPHISH; mkMon 25 30 SPECIES_CORPHISH; mkMon 30 35 SPECIES_CORPHISH; mkMon 20 25 SPECIES_CORPHISH; mkMon 35 40 SPECIES_CORPHISH; mkMon 40 45 SPECIES_CORPHISH]));
   mkEnc "MAP_UNDERWATER_ROUTE124" "gUnderwater_Route124"
     None
     (Some (mkMons 4 [mkMon 20 30 SPECIES_CLAMPERL; mkMon 20 30 SPECIES_CHINCHOU; mkMon 30 35 SPECIES_CLAMPERL; mkMon 30 35 SPECIES_RELICANTH; mkMon 30 35 SPECIES_RELICANTH]))
     None
     None;
   mkEnc "MAP_SHOAL_CAVE_LOW_TIDE_ICE_ROOM" "gShoalCave_LowTideIceRoom"
     (Some (mkMons 10 [mkMon 26 26 SPECIES_ZUBAT; mkMon 26 26 SPECIES_SPHEAL; mkMon 28 28 SPECIES_ZUBAT; mkMon 28 28 SPECIES_SPHEAL; mkMon 30 30 SPECIES_ZUBAT; mkMon 30 30 SPECIES_SPHEAL; mkMon 26 26 SPECIES_SNORUNT; mkMon 32 32 SPECIES_SPHEAL; mkMon 30 30 SPECIES_GOLBAT; mkMon 28 28 SPECIES_SNORUNT; mkMon 32 32 SPECIES_GOLBAT; mkMon 30 30 SPECIES_SNORUNT]))
     None
     None
     None;
   mkEnc "MAP_SKY_PILLAR_1F" "gSkyPillar_1F"
     (Some (mkMons 10 [mkMon 33 33 SPECIES_SABLEYE; mkMon 34 34 SPECIES_GOLBAT; mkMon 35 35 SPECIES_GOLBAT; mkMon 34 34 SPECIES_SABLEYE; mkMon 36 36 SPECIES_CLAYDOL; mkMon 37 37 SPECIES_BANETTE; mkMon 38 38 SPECIES_BANETTE; mkMon 36 36 SPECIES_CLAYDOL; mkMon 37 37 SPECIES_CLAYDOL; mkMon 38 38 SPECIES_CLAYDOL; mkMon 37 37 SPECIES_CLAYDOL; mkMon 38 38 SPECIES_CLAYDOL]))
     None
     None
     None;
   mkEnc "MAP_SOOTOPOLIS_CITY" "gSootopolisCity"
     None
     (Some (mkMons 1 [mkMon 5 35 SPECIES_MAGIKARP; mkMon 10 30 SPECIES_MAGIKARP; mkMon 15 25 SPECIES_MAGIKARP; mkMon 25 30 SPECIES_MAGIKARP; mkMon 25 30 SPECIES_MAGIKARP]))
     None
     (Some (mkMons 10 [mkMon 5 10 SPECIES_MAGIKARP; mkMon 5 10 SPECIES_TENTACOOL; mkMon 10 30 SPECIES_MAGIKARP; mkMon 10 30 SPECIES_MAGIKARP; mkMon 10 30 SPECIES_MAGIKARP; mkMon 30 35 SPECIES_MAGIKARP; mkMon 30 35 SPECIES_MAGIKARP; mkMon 35 40 SPECIES_GYARADOS; mkMon 35 45 SPECIES_GYARADOS; mkMon 5 45 SPECIES_GYARADOS]));
   mkEnc "MAP_SKY_PILLAR_3F" "gSkyPillar_3F"
     (Some (mkMons 10 [mkMon 33 33 SPECIES_SABLEYE; mkMon 34 34 SPECIES_GOLBAT; mkMon 35 35 SPECIES_GOLBAT; mkMon 34 34 SPECIES_SABLEYE; mkMon 36 36 SPECIES_CLAYDOL; mkMon 37 37 SPECIES_BANETTE; mkMon 38 38 SPECIES_BANETTE; mkMon 36 36 SPECIES_CLAYDOL; mkMon 37 37 SPECIES_CLAYDOL; mkMon 38 38 SPECIES_CLAYDOL; mkMon 37 37 SPECIES_CLAYDOL; mkMon 38 38 SPECIES_CLAYDOL]))
     None
     None
     None;
   mkEnc "MAP_SKY_PILLAR_5F" "gSkyPillar_5F"
     (Some (mkMons 10 [mkMon 33 33 SPECIES_SABLEYE; mkMon 34 34 SPECIES_GOLBAT; mkMon 35 35 SPECIES_GOLBAT; mkMon 34 34 SPECIES_SABLEYE; mkMon 36 36 SPECIES_CLAYDOL; mkMon 37 37 SPECIES_BANETTE; mkMon 38 38 SPECIES_BANETTE; mkMon 36 36 SPECIES_CLAYDOL; mkMon 37 37 SPECIES_CLAYDOL; mkMon 38 38 SPECIES_ALTARIA; mkMon 39 39 SPECIES_ALTARIA; mkMon 39 39 SPECIES_ALTARIA]))
     None
     None
     None;
   mkEnc "MAP_SAFARI_ZONE_SOUTHEAST" "gSafariZone_Southeast"
     (Some (mkMons 25 [mkMon 33 33 SPECIES_SUNKERN; mkMon 34 34 SPECIES_MAREEP; mkMon 35 35 SPECIES_SUNKERN; mkMon 36 36 SPECIES_MAREEP; mkMon 34 34 SPECIES_AIPOM; mkMon 33 33 SPECIES_SPINARAK; mkMon 35 35 SPECIES_HOOTHOOT; mkMon 34 34 SPECIES_SNUBBULL; mkMon 36 36 SPECIES_STANTLER; mkMon 37 37 SPECIES_GLIGAR; mkMon 39 39 SPECIES_STANTLER; mkMon 40 40 SPECIES_GLIGAR]))
     (Some (mkMons 9 [mkMon 25 30 SPECIES_WOOPER; mkMon 25 30 SPECIES_MARILL; mkMon 25 30 SPECIES_MARILL; mkMon 30 35 SPECIES_MARILL; mkMon 35 40 SPECIES_QUAGSIRE]))
     None
     (Some (mkMons 35 [mkMon 25 30 SPECIES_MAGIKARP; mkMon 25 30 SPECIES_GOLDEEN; mkMon 25 30 SPECIES_MAGIKARP; mkMon 25 30 SPECIES_GOLDEEN; mkMon 30 35 SPECIES_REMORAID; mkMon 25 30 SPECIES_GOLDEEN; mkMon 25 30 SPECIES_REMORAID; mkMon 30 35 SPECIES_REMORAID; mkMon 30 35 SPECIES_REMORAID; mkMon 35 40 SPECIES_OCTILLERY]));
   mkEnc "MAP_SAFARI_ZONE_NORTHEAST" "gSafariZone_Northeast"
     (Some (mkMons 25 [mkMon 33 33 SPECIES_AIPOM; mkMon 34 34 SPECIES_TEDDIURSA; mkMon 35 35 SPECIES_AIPOM; mkMon 36 36 SPECIES_TEDDIURSA; mkMon 34 34 SPECIES_SUNKERN; mkMon 33 33 SPECIES_LEDYBA; mkMon 35 35 SPECIES_HOOTHOOT; mkMon 34 34 SPECIES_PINECO; mkMon 36 36 SPECIES_HOUNDOUR; mkMon 37 37 SPECIES_MILTANK; mkMon 39 39 SPECIES_HOUNDOUR; mkMon 40 40 SPECIES_MILTANK]))
     None
     (Some (mkMons 25 [mkMon 25 30 SPECIES_SHUCKLE; mkMon 20 25 SPECIES_SHUCKLE; mkMon 30 35 SPECIES_SHUCKLE; mkMon 30 35 SPECIES_SHUCKLE; mkMon 35 40 SPECIES_SHUCKLE]))
     None;
   mkEnc "MAP_MAGMA_HIDEOUT_1F" "gMagmaHideout_1F"
     (Some (mkMons 10 [mkMon 27 27 SPECIES_GEODUDE; mkMon 28 28 SPECIES_TORKOAL; mkMon 28 28 SPECIES_GEODUDE; mkMon 30 30 SPECIES_TORKOAL; mkMon 29 29 SPECIES_GEODUDE; mkMon 30 30 SPECIES_GEODUDE; mkMon 30 30 SPECIES_GEODUDE; mkMon 30 30 SPECIES_GRAVELER; mkMon 30 30 SPECIES_GRAVELER; mkMon 31 31 SPECIES_GRAVELER; mkMon 32 32 SPECIES_GRAVELER; mkMon 33 33 SPECIES_GRAVELER]))
     None
     None
     None;
   mkEnc "MAP_MAGMA_HIDEOUT_2F_1R" "gMagmaHideout_2F_1R"
     (Some (mkMons 10 [mkMon 27 27 SPECIES_GEODUDE; mkMon 28 28 SPECIES_TORKOAL; mkMon 28 28 SPECIES_GEODUDE; mkMon 30 30 SPECIES_TORKOAL; mkMon 29 29 SPECIES_GEODUDE; mkMon 30 30 SPECIES_GEODUDE; mkMon 30 30 SPECIES_GEODUDE; mkMon 30 30 SPECIES_GRAVELER; mkMon 30 30 SPECIES_GRAVELER; mkMon 31 31 SPECIES_GRAVELER; mkMon 32 32 SPECIES_GRAVELER; mkMon 33 33 SPECIES_GRAVELER]))
     None
     None
     None;
   mkEnc "MAP_MAGMA_HIDEOUT_2F_2R" "gMagmaHideout_2F_2R"
     (Some (mkMons 10 [mkMon 27 27 SPECIES_GEODUDE; mkMon 28 28 SPECIES_TORKOAL; mkMon 28 28 SPECIES_GEODUDE; mkMon 30 30 SPECIES_TORKOAL; mkMon 29 29 SPECIES_GEODUDE; mkMon 30 30 SPECIES_GEODUDE; mkMon 30 30 SPECIES_GEODUDE; mkMon 30 30 SPECIES_GRAVELER; mkMon 30 30 SPECIES_GRAVELER; mkMon 31 31 SPECIES_GRAVELER; mkMon 32 32 SPECIES_GRAVELER; mkMon 33 33 SPECIES_GRAVELER]))
     None
     None
     None;
   mkEnc "MAP_MAGMA_HIDEOUT_3F_1R" "gMagmaHideout_3F_1R"
     (Some (mkMons 10 [mkMon 27 27 SPECIES_GEODUDE; mkMon 28 28 SPECIES_TORKOAL; mkMon 28 28 SPECIES_GEODUDE; mkMon 30 30 SPECIES_TORKOAL; mkMon 29 29 SPECIES_GEODUDE; mkMon 30 30 SPECIES_GEODUDE; mkMon 30 30 SPECIES_GEODUDE; mkMon 30 30 SPECIES_GRAVELER; mkMon 30 30 SPECIES_GRAVELER; mkMon 31 31 SPECIES_GRAVELER; mkMon 32 32 SPECIES_GRAVELER; mkMon 33 33 SPECIES_GRAVELER]))
     None
     None
     None;
   mkEnc "MAP_MAGMA_HIDEOUT_3F_2R" "gMagmaHideout_3F_2R"
     (Some (mkMons 10 [mkMon 27 27 SPECIES_GEODUDE; mkMon 28 28 SPECIES_TORKOAL; mkMon 28 28 SPECIES_GEODUDE; mkMon 30 30 SPECIES_TORKOAL; mkMon 29 29 SPECIES_GEODUDE; mkMon 30 30 SPECIES_GEODUDE; mkMon 30 30 SPECIES_GEODUDE; mkMon 30 30 SPECIES_GRAVELER; mkMon 30 30 SPECIES_GRAVELER; mkMon 31 31 SPECIES_GRAVELER; mkMon 32 32 SPECIES_GRAVELER; mkMon 33 33 SPECIES_GRAVELER]))
     None
     None
     None;
   mkEnc "MAP_MAGMA_HIDEOUT_4F" "gMagmaHideout_4F"
     (Some (mkMons 10 [mkMon 27 27 SPECIES_GEODUDE; mkMon 28 28 SPECIES_TORKOAL; mkMon 28 28 SPECIES_GEODUDE; mkMon 30 30 SPECIES_TORKOAL; mkMon 29 29 SPECIES_GEODUDE; mkMon 30 30 SPECIES_GEODUDE; mkMon 30 30 SPECIES_GEODUDE; mkMon 30 30 SPECIES_GRAVELER; mkMon 30 30 SPECIES_GRAVELER; mkMon 31 31 SPECIES_GRAVELER; mkMon 32 32 SPECIES_GRAVELER; mkMon 33 33 SPECIES_GRAVELER]))
     None
     None
     None;
   mkEnc "MAP_MAGMA_HIDEOUT_3F_3R" "gMagmaHideout_3F_3R"
     (Some (mkMons 10 [mkMon 27 27 SPECIES_GEODUDE; mkMon 28 28 SPECIES_TORKOAL; mkMon 28 28 SPECIES_GEODUDE; mkMon 30 30 SPECIES_TORKOAL; mkMon 29 29 SPECIES_GEODUDE; mkMon 30 30 SPECIES_GEODUDE; mkMon 30 30 SPECIES_GEODUDE; mkMon 30 30 SPECIES_GRAVELER; mkMon 30 30 SPECIES_GRAVELER; mkMon 31 31 SPECIES_GRAVELER; mkMon 32 32 SPECIES_GRAVELER; mkMon 33 33 SPECIES_GRAVELER]))
     None
     None
     None;
   mkEnc "MAP_MAGMA_HIDEOUT_2F_3R" "gMagmaHideout_2F_3R"
     (Some (mkMons 10 [mkMon 27 27 SPECIES_GEODUDE; mkMon 28 28 SPECIES_TORKOAL; mkMon 28 28 SPECIES_GEODUDE; mkMon 30 30 SPECIES_TORKOAL; mkMon 29 29 SPECIES_GEODUDE; mkMon 30 30 SPECIES_GEODUDE; mkMon 30 30 SPECIES_GEODUDE; mkMon 30 30 SPECIES_GRAVELER; mkMon 30 30 SPECIES_GRAVELER; mkMon 31 31 SPECIES_GRAVELER; mkMon 32 32 SPECIES_GRAVELER; mkMon 33 33 SPECIES_GRAVELER]))
     None
     None
     None;
   mkEnc "MAP_MIRAGE_TOWER_1F" "gMirageTower_1F"
     (Some (mkMons 10 [mkMon 21 21 SPECIES_SANDSHREW; mkMon 21 21 SPECIES_TRAPINCH; mkMon 20 20 SPECIES_SANDSHREW; mkMon 20 20 SPECIES_TRAPINCH; mkMon 20 20 SPECIES_SANDSHREW; mkMon 20 20 SPECIES_TRAPINCH; mkMon 22 22 SPECIES_SANDSHREW; mkMon 22 22 SPECIES_TRAPINCH; mkMon 23 23 SPECIES_SANDSHREW; mkMon 23 23 SPECIES_TRAPINCH; mkMon 24 24 SPECIES_SANDSHREW; mkMon 24 24 SPECIES_TRAPINCH]))
     None
     None
     None;
   mkEnc "MAP_MIRAGE_TOWER_2F" "gMirageTower_2F"
     (Some (mkMons 10 [mkMon 21 21 SPECIES_SANDSHREW; mkMon 21 21 SPECIES_TRAPINCH; mkMon 20 20 SPECIES_SANDSHREW; mkMon 20 20 SPECIES_TRAPINCH; mkMon 20 20 SPECIES_SANDSHREW; mkMon 20 20 SPECIES_TRAPINCH; mkMon 22 22 SPECIES_SANDSHREW; mkMon 22 22 SPECIES_TRAPINCH; mkMon 23 23 SPECIES_SANDSHREW; mkMon 23 23 SPECIES_TRAPINCH; mkMon 24 24 SPECIES_SANDSHREW; mkMon 24 24 SPECIES_TRAPINCH]))
     None
     None
     None;
   mkEnc "MAP_MIRAGE_TOWER_3F" "gMirageTower_3F"
     (Some (mkMons 10 [mkMon 21 21 SPECIES_SANDSHREW; mkMon 21 21 SPECIES_TRAPINCH; mkMon 20 20 SPECIES_SANDSHREW; mkMon 20 20 SPECIES_TRAPINCH; mkMon 20 20 SPECIES_SANDSHREW; mkMon 20 20 SPECIES_TRAPINCH; mkMon 22 22 SPECIES_SANDSHREW; mkMon 22 22 SPECIES_TRAPINCH; mkMon 23 23 SPECIES_SANDSHREW; mkMon 23 23 SPECIES_TRAPINCH; mkMon 24 24 SPECIES_SANDSHREW; mkMon 24 24 SPECIES_TRAPINCH]))
     None
     None
     None;
   mkEnc "MAP_MIRAGE_TOWER_4F" "gMirageTower_4F"
     (Some (mkMons 10 [mkMon 21 21 SPECIES_SANDSHREW; mkMon 21 21 SPECIES_TRAPINCH; mkMon 20 20 SPECIES_SANDSHREW; mkMon 20 20 SPECIES_TRAPINCH; mkMon 20 20 SPECIES_SANDSHREW; mkMon 20 20 SPECIES_TRAPINCH; mkMon 22 22 SPECIES_SANDSHREW; mkMon 22 22 SPECIES_TRAPINCH; mkMon 23 23 SPECIES_SANDSHREW; mkMon 23 23 SPECIES_TRAPINCH; mkMon 24 24 SPECIES_SANDSHREW; mkMon 24 24 SPECIES_TRAPINCH]))
     None
     None
     None;
   mkEnc "MAP_DESERT_UNDERPASS" "gDesertUnderpass"
     (Some (mkMons 10 [mkMon 38 38 SPECIES_DITTO; mkMon 35 35 SPECIES_WHISMUR; mkMon 40 40 SPECIES_DITTO; mkMon 40 40 SPECIES_LOUDRED; mkMon 41 41 SPECIES_DITTO; mkMon 36 36 SPECIES_WHISMUR; mkMon 38 38 SPECIES_LOUDRED; mkMon 42 42 SPECIES_DITTO; mkMon 38 38 SPECIES_WHISMUR; mkMon 43 43 SPECIES_DITTO; mkMon 44 44 SPECIES_LOUDRED; mkMon 45 45 SPECIES_DITTO]))
     None
     None
     None;
   mkEnc "MAP_ARTISAN_CAVE_B1F" "gArtisanCave_B1F"
     (Some (mkMons 10 [mkMon 40 40 SPECIES_SMEARGLE; mkMon 41 41 SPECIES_SMEARGLE; mkMon 42 42 SPECIES_SMEARGLE; mkMon 43 43 SPECIES_SMEARGLE; mkMon 44 44 SPECIES_SMEARGLE; mkMon 45 45 SPECIES_SMEARGLE; mkMon 46 46 SPECIES_SMEARGLE; mkMon 47 47 SPECIES_SMEARGLE; mkMon 48 48 SPECIES_SMEARGLE; mkMon 49 49 SPECIES_SMEARGLE; mkMon 50 50 SPECIES_SMEARGLE; mkMon 50 50 SPECIES_SMEARGLE]))
     None
     None
     None;
   mkEnc "MAP_ARTISAN_CAVE_1F" "gArtisanCave_1F"
     (Some (mkMons 10 [mkMon 40 40 SPECIES_SMEARGLE; mkMon 41 41 SPECIES_SMEARGLE; mkMon 42 42 SPECIES_SMEARGLE; mkMon 43 43 SPECIES_SMEARGLE; mkMon 44 44 SPECIES_SMEARGLE; mkMon 45 45 SPECIES_SMEARGLE; mkMon 46 46 SPECIES_SMEARGLE; mkMon 47 47 SPECIES_SMEARGLE; mkMon 48 48 SPECIES_SMEARGLE; mkMon 49 49 SPECIES_SMEARGLE; mkMon 50 50 SPECIES_SMEARGLE; mkMon 50 50 SPECIES_SMEARGLE]))
     None
     None
     None;
   mkEnc "MAP_ALTERING_CAVE" "gAlteringCave1"
     (Some (mkMons 7 [mkMon 10 10 SPECIES_ZUBAT; mkMon 12 12 SPECIES_ZUBAT; mkMon 8 8 SPECIES_ZUBAT; mkMon 14 14 SPECIES_ZUBAT; mkMon 10 10 SPECIES_ZUBAT; mkMon 12 12 SPECIES_ZUBAT; mkMon 16 16 SPECIES_ZUBAT; mkMon 6 6 SPECIES_ZUBAT; mkMon 8 8 SPECIES_ZUBAT; mkMon 14 14 SPECIES_ZUBAT; mkMon 8 8 SPECIES_ZUBAT; mkMon 14 14 SPECIES_ZUBAT]))
     None
     None
     None;
   mkEnc "MAP_ALTERING_CAVE" "gAlteringCave2"
     (Some (mkMons 7 [mkMon 7 7 SPECIES_MAREEP; mkMon 9 9 SPECIES_MAREEP; mkMon 5 5 SPECIES_MAREEP; mkMon 11 11 SPECIES_MAREEP; mkMon 7 7 SPECIES_MAREEP; mkMon 9 9 SPECIES_MAREEP; mkMon 13 13 SPECIES_MAREEP; mkMon 3 3 SPECIES_MAREEP; mkMon 5 5 SPECIES_MAREEP; mkMon 11 11 SPECIES_MAREEP; mkMon 5 5 SPECIES_MAREEP; mkMon 11 11 SPECIES_MAREEP]))
     None
     None
     None;
   mkEnc "MAP_ALTERING_CAVE" "gAlteringCave3"
     (Some (mkMons 7 [mkMon 23 23 SPECIES_PINECO; mkMon 25 25 SPECIES_PINECO; mkMon 22 22 SPECIES_PINECO; mkMon 27 27 SPECIES_PINECO; mkMon 23 23 SPECIES_PINECO; mkMon 25 25 SPECIES_PINECO; mkMon 29 29 SPECIES_PINECO; mkMon 19 19 SPECIES_PINECO; mkMon 21 21 SPECIES_PINECO; mkMon 27 27 SPECIES_PINECO; mkMon 21 21 SPECIES_PINECO; mkMon 27 27 SPECIES_PINECO]))
     None
     None
     None;
   mkEnc "MAP_ALTERING_CAVE" "gAlteringCave4"
     (Some (mkMons 7 [mkMon 16 16 SPECIES_HOUNDOUR; mkMon 18 18 SPECIES_HOUNDOUR; mkMon 14 14 SPECIES_HOUNDOUR; mkMon 20 20 SPECIES_HOUNDOUR; mkMon 16 16 SPECIES_HOUNDOUR; mkMon 18 18 SPECIES_HOUNDOUR; mkMon 22 22 SPECIES_HOUNDOUR; mkMon 12 12 SPECIES_HOUNDOUR; mkMon 14 14 SPECIES_HOUNDOUR; mkMon 20 20 SPECIES_HOUNDOUR; mkMon 14 14 SPECIES_HOUNDOUR; mkMon 20 20 SPECIES_HOUNDOUR]))
     None
     None
     None;
   mkEnc "MAP_ALTERING_CAVE" "gAlteringCave5"
     (Some (mkMons 7 [mkMon 10 10 SPECIES_TEDDIURSA; mkMon 12 12 SPECIES_TEDDIURSA; mkMon 8 8 SPECIES_TEDDIURSA; mkMon 14 14 SPECIES_TEDDIURSA; mkMon 10 10 SPECIES_TEDDIURSA; mkMon 12 12 SPECIES_TEDDIURSA; mkMon 16 16 SPECIES_TEDDIURSA; mkMon 6 6 SPECIES_TEDDIURSA; mkMon 8 8 SPECIES_TEDDIURSA; mkMon 14 14 SPECIES_TEDDIURSA; mkMon 8 8 SPECIES_TEDDIURSA; mkMon 14 14 SPECIES_TEDDIURSA]))
     None
     None
     None;
   mkEnc "MAP_ALTERING_CAVE" "gAlteringCave6"
     (Some (mkMons 7 [mkMon 22 22 SPECIES_AIPOM; mkMon 24 24 SPECIES_AIPOM; mkMon 20 20 SPECIES_AIPOM; mkMon 26 26 SPECIES_AIPOM; mkMon 22 22 SPECIES_AIPOM; mkMon 24 24 SPECIES_AIPOM; mkMon 28 28 SPECIES_AIPOM; mkMon 18 18 SPECIES_AIPOM; mkMon 20 20 SPECIES_AIPOM; mkMon 26 26 SPECIES_AIPOM; mkMon 20 20 SPECIES_AIPOM; mkMon 26 26 SPECIES_AIPOM]))
     None
     None
     None;
   mkEnc "MAP_ALTERING_CAVE" "gAlteringCave7"
     (Some (mkMons 7 [mkMon 22 22 SPECIES_SHUCKLE; mkMon 24 24 SPECIES_SHUCKLE; mkMon 20 20 SPECIES_SHUCKLE; mkMon 26 26 SPECIES_SHUCKLE; mkMon 22 22 SPECIES_SHUCKLE; mkMon 24 24 SPECIES_SHUCKLE; mkMon 28 28 SPECIES_SHUCKLE; mkMon 18 18 SPECIES_SHUCKLE; mkMon 20 20 SPECIES_SHUCKLE; mkMon 26 26 SPECIES_SHUCKLE; mkMon 20 20 SPECIES_SHUCKLE; mkMon 26 26 SPECIES_SHUCKLE]))
     None
     None
     None;
   mkEnc "MAP_ALTERING_CAVE" "gAlteringCave8"
     (Some (mkMons 7 [mkMon 22 22 SPECIES_STANTLER; mkMon 24 24 SPECIES_STANTLER; mkMon 20 20 SPECIES_STANTLER; mkMon 26 26 SPECIES_STANTLER; mkMon 22 22 SPECIES_STANTLER; mkMon 24 24 SPECIES_STANTLER; mkMon 28 28 SPECIES_STANTLER; mkMon 18 18 SPECIES_STANTLER; mkMon 20 20 SPECIES_STANTLER; mkMon 26 26 SPECIES_STANTLER; mkMon 20 20 SPECIES_STANTLER; mkMon 26 26 SPECIES_STANTLER]))
     None
     None
     None;
   mkEnc "MAP_ALTERING_CAVE" "gAlteringCave9"
     (Some (mkMons 7 [mkMon 22 22 SPECIES_SMEARGLE; mkMon 24 24 SPECIES_SMEARGLE; mkMon 20 20 SPECIES_SMEARGLE; mkMon 26 26 SPECIES_SMEARGLE; mkMon 22 22 SPECIES_SMEARGLE; mkMon 24 24 SPECIES_SMEARGLE; mkMon 28 28 SPECIES_SMEARGLE; mkMon 18 18 SPECIES_SMEARGLE; mkMon 20 20 SPECIES_SMEARGLE; mkMon 26 26 SPECIES_SMEARGLE; mkMon 20 20 SPECIES_SMEARGLE; mkMon 26 26 SPECIES_SMEARGLE]))
     None
     None
     None;
   mkEnc "MAP_METEOR_FALLS_STEVENS_CAVE" "gMeteorFalls_StevensCave"
     (Some (mkMons 10 [mkMon 33 33 SPECIES_GOLBAT; mkMon 35 35 SPECIES_GOLBAT; mkMon 33 33 SPECIES_GOLBAT; mkMon 35 35 SPECIES_SOLROCK; mkMon 33 33 SPECIES_SOLROCK; mkMon 37 37 SPECIES_SOLROCK; mkMon 35 35 SPECIES_GOLBAT; mkMon 39 39 SPECIES_SOLROCK; mkMon 38 38 SPECIES_GOLBAT; mkMon 40 40 SPECIES_GOLBAT; mkMon 38 38 SPECIES_GOLBAT; mkMon 40 40 SPECIES_GOLBAT]))
     None
     None
     None].

(** resources/encount/frlg_wild_encounters.json *)
Definition frlg_encounters : list encounter :=
  [mkEnc "MAP_SEVEN_ISLAND_TANOBY_RUINS_MONEAN_CHAMBER" "sSevenIslandTanobyRuinsMoneanChamber_FireRed"
     (Some (mkMons 7 [mkMon 25 25 SPECIES_UNOWN; mkMon 25 25 SPECIES_UNOWN; mkMon 25 25 SPECIES_UNOWN; mkMon 25 25 SPECIES_UNOWN; mkMon 25 25 SPECIES_UNOWN; mkMon 25 25 SPECIES_UNOWN; mkMon 25 25 SPECIES_UNOWN; mkMon 25 25 SPECIES_UNOWN; mkMon 25 25 SPECIES_UNOWN; mkMon 25 25 SPECIES_UNOWN; mkMon 25 25 SPECIES_UNOWN; mkMon 25 25 SPECIES_UNOWN]))
     None
     None
     None;
   mkEnc "MAP_SEVEN_ISLAND_TANOBY_RUINS_LIPTOO_CHAMBER" "sSevenIslandTanobyRuinsLiptooChamber_FireRed"
     (Some (mkMons 7 [mkMon 25 25 SPECIES_UNOWN; mkMon 25 25 SPECIES_UNOWN; mkMon 25 25 SPECIES_UNOWN; mkMon 25 25 SPECIES_UNOWN; mkMon 25 25 SPECIES_UNOWN; mkMon 25 25 SPECIES_UNOWN; mkMon 25 25 SPECIES_UNOWN; mkMon 25 25 SPECIES_UNOWN; mkMon 25 25 SPECIES_UNOWN; mkMon 25 25 SPECIES_UNOWN; mkMon 25 25 SPECIES_UNOWN; mkMon 25 25 SPECIES_UNOWN]))
     None
     None
     None;
   mkEnc "MAP_SEVEN_ISLAND_TANOBY_RUINS_WEEPTH_CHAMBER" "sSevenIslandTanobyRuinsWeepthChamber_FireRed"
     (Some (mkMons 7 [mkMon 25 25 SPECIES_UNOWN; mkMon 25 25 SPECIES_UNOWN; mkMon 25 25 SPECIES_UNOWN; mkMon 25 25 SPECIES_UNOWN; mkMon 25 25 SPECIES_UNOWN; mkMon 25 25 SPECIES_UNOWN; mkMon 25 25 SPECIES_UNOWN; mkMon 25 25 SPECIES_UNOWN; mkMon 25 25 SPECIES_UNOWN; mkMon 25 25 SPECIES_UNOWN; mkMon 25 25 SPECIES_UNOWN; mkMon 25 25 SPECIES_UNOWN]))
     None
     None
     None;
   mkEnc "MAP_SEVEN_ISLAND_TANOBY_RUINS_DILFORD_CHAMBER" "sSevenIslandTanobyRuinsDilfordChamber_FireRed"
     (Some (mkMons 7 [mkMon 25 25 SPECIES_UNOWN; mkMon 25 25 SPECIES_UNOWN; mkMon 25 25 SPECIES_UNOWN; mkMon 25 25 SPECIES_UNOWN; mkMon 25 25 SPECIES_UNOWN; mkMon 25 25 SPECIES_UNOWN; mkMon 25 25 SPECIES_UNOWN; mkMon 25 25 SPECIES_UNOWN; mkMon 25 25 SPECIES_UNOWN; mkMon 25 25 SPECIES_UNOWN; mkMon 25 25 SPECIES_UNOWN; mkMon 25 25 SPECIES_UNOWN]))
     None
     None
     None;
   mkEnc "MAP_SEVEN_ISLAND_TANOBY_RUINS_SCUFIB_CHAMBER" "sSevenIslandTanobyRuinsScufibChamber_FireRed"
     (Some (mkMons 7 [mkMon 25 25 SPECIES_UNOWN; mkMon 25 25 SPECIES_UNOWN; mkMon 25 25 SPECIES_UNOWN; mkMon 25 25 SPECIES_UNOWN; mkMon 25 25 SPECIES_UNOWN; mkMon 25 25 SPECIES_UNOWN; mkMon 25 25 SPECIES_UNOWN; mkMon 25 25 SPECIES_UNOWN; mkMon 25 25 SPECIES_UNOWN; mkMon 25 25 SPECIES_UNOWN; mkMon 25 25 SPECIES_UNOWN; mkMon 25 25 SPECIES_UNOWN]))
     None
     None
     None;
   mkEnc "MAP_SEVEN_ISLAND_TANOBY_RUINS_RIXY_CHAMBER" "sSevenIslandTanobyRuinsRixyChamber_FireRed"
     (Some (mkMons 7 [mkMon 25 25 SPECIES_UNOWN; mkMon 25 25 SPECIES_UNOWN; mkMon 25 25 SPECIES_UNOWN; mkMon 25 25 SPECIES_UNOWN; mkMon 25 25 SPECIES_UNOWN; mkMon 25 25 SPECIES_UNOWN; mkMon 25 25 SPECIES_UNOWN; mkMon 25 25 SPECIES_UNOWN; mkMon 25 25 SPECIES_UNOWN; mkMon 25 25 SPECIES_UNOWN; mkMon 25 25 SPECIES_UNOWN; mkMon 25 25 SPECIES_UNOWN]))
     None
     None
     None;
   mkEnc "MAP_SEVEN_ISLAND_TANOBY_RUINS_VIAPOIS_CHAMBER" "sSevenIslandTanobyRuinsViapoisChamber_FireRed"
     (Some (mkMons 7 [mkMon 25 25 SPECIES_UNOWN; mkMon 25 25 SPECIES_UNOWN; mkMon 25 25 SPECIES_UNOWN; mkMon 25 25 SPECIES_UNOWN; mkMon 25 25 SPECIES_UNOWN; mkMon 25 25 SPECIES_UNOWN; mkMon 25 25 SPECIES_UNOWN; mkMon 25 25 SPECIES_UNOWN; mkMon 25 25 SPECIES_UNOWN; mkMon 25 25 SPECIES_UNOWN; mkMon 25 25 SPECIES_UNOWN; mkMon 25 25 SPECIES_UNOWN]))
     None
     None
     None;
   mkEnc "MAP_VIRIDIAN_FOREST" "sViridianForest_FireRed"
     (Some (mkMons 14 [mkMon 4 4 SPECIES_CATERPIE; mkMon 4 4 SPECIES_WEEDLE; mkMon 5 5 SPECIES_CATERPIE; mkMon 5 5 SPECIES_WEEDLE; mkMon 3 3 SPECIES_CATERPIE; mkMon 3 3 SPECIES_WEEDLE; mkMon 5 5 SPECIES_METAPOD; mkMon 5 5 SPECIES_KAKUNA; mkMon 4 4 SPECIES_KAKUNA; mkMon 3 3 SPECIES_PIKACHU; mkMon 6 6 SPECIES_KAKUNA; mkMon 5 5 SPECIES_PIKACHU]))
     None
     None
     None;
   mkEnc "MAP_MT_MOON_1F" "sMtMoon1F_FireRed"
     (Some (mkMons 7 [mkMon 7 7 SPECIES_ZUBAT; mkMon 8 8 SPECIES_ZUBAT; mkMon 7 7 SPECIES_GEODUDE; mkMon 9 9 SPECIES_ZUBAT; mkMon 10 10 SPECIES_ZUBAT; mkMon 8 8 SPECIES_GEODUDE; mkMon 9 9 SPECIES_GEODUDE; mkMon 8 8 SPECIES_PARAS; mkMon 7 7 SPECIES_ZUBAT; mkMon 7 7 SPECIES_ZUBAT; mkMon 7 7 SPECIES_ZUBAT; mkMon 8 8 SPECIES_CLEFAIRY]))
     None
     None
     None;
   mkEnc "MAP_MT_MOON_B1F" "sMtMoonB1F_FireRed"
     (Some (mkMons 5 [mkMon 7 7 SPECIES_PARAS; mkMon 8 8 SPECIES_PARAS; mkMon 5 5 SPECIES_PARAS; mkMon 6 6 SPECIES_PARAS; mkMon 9 9 SPECIES_PARAS; mkMon 10 10 SPECIES_PARAS; mkMon 7 7 SPECIES_PARAS; mkMon 8 8 SPECIES_PARAS; mkMon 5 5 SPECIES_PARAS; mkMon 6 6 SPECIES_PARAS; mkMon 9 9 SPECIES_PARAS; mkMon 10 10 SPECIES_PARAS]))
     None
     None
     None;
   mkEnc "MAP_MT_MOON_B2F" "sMtMoonB2F_FireRed"
     (Some (mkMons 7 [mkMon 8 8 SPECIES_ZUBAT; mkMon 9 9 SPECIES_GEODUDE; mkMon 9 9 SPECIES_ZUBAT; mkMon 10 10 SPECIES_ZUBAT; mkMon 10 10 SPECIES_GEODUDE; mkMon 10 10 SPECIES_PARAS; mkMon 12 12 SPECIES_PARAS; mkMon 10 10 SPECIES_CLEFAIRY; mkMon 11 11 SPECIES_ZUBAT; mkMon 11 11 SPECIES_ZUBAT; mkMon 11 11 SPECIES_ZUBAT; mkMon 12 12 SPECIES_CLEFAIRY]))
     None
     None
     None;
   mkEnc "MAP_SSANNE_EXTERIOR" "sSSAnneExterior_FireRed"
     None
     (Some (mkMons 1 [mkMon 5 10 SPECIES_TENTACOOL; mkMon 10 20 SPECIES_TENTACOOL; mkMon 20 30 SPECIES_TENTACOOL; mkMon 30 35 SPECIES_TENTACOOL; mkMon 35 40 SPECIES_TENTACOOL]))
     None
     (Some (mkMons 10 [mkMon 5 5 SPECIES_MAGIKARP; mkMon 5 5 SPECIES_MAGIKARP; mkMon 5 15 SPECIES_HORSEA; mkMon 5 15 SPECIES_MAGIKARP; mkMon 5 15 SPECIES_KRABBY; mkMon 15 25 SPECIES_HORSEA; mkMon 15 25 SPECIES_SHELLDER; mkMon 15 25 SPECIES_GYARADOS; mkMon 25 35 SPECIES_HORSEA; mkMon 25 35 SPECIES_PSYDUCK]));
   mkEnc "MAP_DIGLETTS_CAVE_B1F" "sDiglettsCaveB1F_FireRed"
     (Some (mkMons 5 [mkMon 18 18 SPECIES_DIGLETT; mkMon 19 19 SPECIES_DIGLETT; mkMon 17 17 SPECIES_DIGLETT; mkMon 15 15 SPECIES_DIGLETT; mkMon 16 16 SPECIES_DIGLETT; mkMon 20 20 SPECIES_DIGLETT; mkMon 21 21 SPECIES_DIGLETT; mkMon 22 22 SPECIES_DIGLETT; mkMon 17 17 SPECIES_DIGLETT; mkMon 29 29 SPECIES_DUGTRIO; mkMon 17 17 SPECIES_DIGLETT; mkMon 31 31 SPECIES_DUGTRIO]))
     None
     None
     None;
   mkEnc "MAP_VICTORY_ROAD_1F" "sVictoryRoad1F_FireRed"
     (Some (mkMons 7 [mkMon 32 32 SPECIES_MACHOP; mkMon 32 32 SPECIES_GEODUDE; mkMon 40 40 SPECIES_ONIX; mkMon 43 43 SPECIES_ONIX; mkMon 46 46 SPECIES_ONIX; mkMon 32 32 SPECIES_ZUBAT; mkMon 44 44 SPECIES_ARBOK; mkMon 44 44 SPECIES_GOLBAT; mkMon 44 44 SPECIES_MAROWAK; mkMon 44 44 SPECIES_MACHOKE; mkMon 46 46 SPECIES_MACHOKE; mkMon 46 46 SPECIES_MAROWAK]))
     None
     None
     None;
   mkEnc "MAP_VICTORY_ROAD_2F" "sVictoryRoad2F_FireRed"
     (Some (mkMons 7 [mkMon 34 34 SPECIES_MACHOP; mkMon 34 34 SPECIES_GEODUDE; mkMon 42 42 SPECIES_PRIMEAPE; mkMon 45 45 SPECIES_ONIX; mkMon 48 48 SPECIES_ONIX; mkMon 34 34 SPECIES_ZUBAT; mkMon 46 46 SPECIES_ARBOK; mkMon 46 46 SPECIES_GOLBAT; mkMon 46 46 SPECIES_MAROWAK; mkMon 46 46 SPECIES_MACHOKE; mkMon 48 48 SPECIES_MACHOKE; mkMon 48 48 SPECIES_MAROWAK]))
     None
     None
     None;
   mkEnc "MAP_VICTORY_ROAD_3F" "sVictoryRoad3F_FireRed"
     (Some (mkMons 7 [mkMon 32 32 SPECIES_MACHOP; mkMon 32 32 SPECIES_GEODUDE; mkMon 40 40 SPECIES_ONIX; mkMon 43 43 SPECIES_ONIX; mkMon 46 46 SPECIES_ONIX; mkMon 32 32 SPECIES_ZUBAT; mkMon 44 44 SPECIES_ARBOK; mkMon 44 44 SPECIES_GOLBAT; mkMon 44 44 SPECIES_MAROWAK; mkMon 44 44 SPECIES_MACHOKE; mkMon 46 46 SPECIES_MACHOKE; mkMon 46 46 SPECIES_MAROWAK]))
     None
     None
     None;
   mkEnc "MAP_POKEMON_MANSION_1F" "sPokemonMansion1F_FireRed"
     (Some (mkMons 7 [mkMon 28 28 SPECIES_KOFFING; mkMon 32 32 SPECIES_RATICATE; mkMon 30 30 SPECIES_KOFFING; mkMon 36 36 SPECIES_RATICATE; mkMon 30 30 SPECIES_GROWLITHE; mkMon 28 28 SPECIES_RATTATA; mkMon 28 28 SPECIES_GRIMER; mkMon 32 32 SPECIES_WEEZING; mkMon 32 32 SPECIES_GROWLITHE; mkMon 26 26 SPECIES_RATTATA; mkMon 32 32 SPECIES_GROWLITHE; mkMon 26 26 SPECIES_RATTATA]))
     None
     None
     None;
   mkEnc "MAP_POKEMON_MANSION_2F" "sPokemonMansion2F_FireRed"
     (Some (mkMons 7 [mkMon 28 28 SPECIES_KOFFING; mkMon 32 32 SPECIES_RATICATE; mkMon 30 30 SPECIES_KOFFING; mkMon 36 36 SPECIES_RATICATE; mkMon 30 30 SPECIES_GROWLITHE; mkMon 28 28 SPECIES_RATTATA; mkMon 28 28 SPECIES_GRIMER; mkMon 32 32 SPECIES_WEEZING; mkMon 32 32 SPECIES_GROWLITHE; mkMon 26 26 SPECIES_RATTATA; mkMon 32 32 SPECIES_GROWLITHE; mkMon 26 26 SPECIES_RATTATA]))
     None
     None
     None;
   mkEnc "MAP_POKEMON_MANSION_3F" "sPokemonMansion3F_FireRed"
     (Some (mkMons 7 [mkMon 28 28 SPECIES_KOFFING; mkMon 32 32 SPECIES_RATICATE; mkMon 30 30 SPECIES_KOFFING; mkMon 36 36 SPECIES_RATICATE; mkMon 30 30 SPECIES_GROWLITHE; mkMon 28 28 SPECIES_RATTATA; mkMon 28 28 SPECIES_GRIMER; mkMon 32 32 SPECIES_WEEZING; mkMon 32 32 SPECIES_GROWLITHE; mkMon 26 26 SPECIES_RATTATA; mkMon 32 32 SPECIES_GROWLITHE; mkMon 26 26 SPECIES_RATTATA]))
     None
     None
     None;
   mkEnc "MAP_POKEMON_MANSION_B1F" "sPokemonMansionB1F_FireRed"
     (Some (mkMons 5 [mkMon 28 28 SPECIES_KOFFING; mkMon 34 34 SPECIES_RATICATE; mkMon 30 30 SPECIES_KOFFING; mkMon 30 30 SPECIES_DITTO; mkMon 30 30 SPECIES_GROWLITHE; mkMon 38 38 SPECIES_RATICATE; mkMon 28 28 SPECIES_GRIMER; mkMon 34 34 SPECIES_WEEZING; mkMon 32 32 SPECIES_GROWLITHE; mkMon 26 26 SPECIES_RATTATA; mkMon 32 32 SPECIES_GROWLITHE; mkMon 26 26 SPECIES_RATTATA]))
     None
     None
     None;
   mkEnc "MAP_SAFARI_ZONE_CENTER" "sSafariZoneCenter_FireRed"
     (Some (mkMons 21 [mkMon 25 25 SPECIES_RHYHORN; mkMon 22 22 SPECIES_NIDORAN_M; mkMon 24 24 SPECIES_EXEGGCUTE; mkMon 25 25 SPECIES_EXEGGCUTE; mkMon 22 22 SPECIES_VENONAT; mkMon 31 31 SPECIES_NIDORINO; mkMon 31 31 SPECIES_NIDORINA; mkMon 30 30 SPECIES_PARASECT; mkMon 22 22 SPECIES_VENONAT; mkMon 23 23 SPECIES_SCYTHER; mkMon 22 22 SPECIES_VENONAT; mkMon 23 23 SPECIES_CHANSEY]))
     (Some (mkMons 2 [mkMon 20 25 SPECIES_PSYDUCK; mkMon 20 25 SPECIES_PSYDUCK; mkMon 25 30 SPECIES_PSYDUCK; mkMon 30 35 SPECIES_PSYDUCK; mkMon 35 40 SPECIES_PSYDUCK]))
     None
     (Some (mkMons 20 [mkMon 5 5 SPECIES_MAGIKARP; mkMon 5 5 SPECIES_MAGIKARP; mkMon 5 15 SPECIES_GOLDEEN; mkMon 5 15 SPECIES_MAGIKARP; mkMon 5 15 SPECIES_POLIWAG; mkMon 15 25 SPECIES_GOLDEEN; mkMon 20 30 SPECIES_SEAKING; mkMon 15 25 SPECIES_DRATINI; mkMon 15 35 SPECIES_PSYDUCK; mkMon 25 35 SPECIES_DRAGONAIR]));
   mkEnc "MAP_SAFARI_ZONE_EAST" "sSafariZoneEast_FireRed"
     (Some (mkMons 21 [mkMon 24 24 SPECIES_NIDORAN_M; mkMon 26 26 SPECIES_DODUO; mkMon 23 23 SPECIES_EXEGGCUTE; mkMon 25 25 SPECIES_EXEGGCUTE; mkMon 22 22 SPECIES_PARAS; mkMon 33 33 SPECIES_NIDORINO; mkMon 24 24 SPECIES_NIDORAN_F; mkMon 25 25 SPECIES_PARASECT; mkMon 22 22 SPECIES_PARAS; mkMon 25 25 SPECIES_KANGASKHAN; mkMon 22 22 SPECIES_PARAS; mkMon 28 28 SPECIES_SCYTHER]))
     (Some (mkMons 2 [mkMon 20 25 SPECIES_PSYDUCK; mkMon 20 25 SPECIES_PSYDUCK; mkMon 25 30 SPECIES_PSYDUCK; mkMon 30 35 SPECIES_PSYDUCK; mkMon 35 40 SPECIES_PSYDUCK]))
     None
     (Some (mkMons 20 [mkMon 5 5 SPECIES_MAGIKARP; mkMon 5 5 SPECIES_MAGIKARP; mkMon 5 15 SPECIES_GOLDEEN; mkMon 5 15 SPECIES_MAGIKARP; mkMon 5 15 SPECIES_POLIWAG; mkMon 15 25 SPECIES_GOLDEEN; mkMon 20 30 SPECIES_SEAKING; mkMon 15 25 SPECIES_DRATINI; mkMon 15 35 SPECIES_PSYDUCK; mkMon 25 35 SPECIES_DRAGONAIR]));
   mkEnc "MAP_SAFARI_ZONE_NORTH" "sSafariZoneNorth_FireRed"
     (Some (mkMons 21 [mkMon 26 26 SPECIES_RHYHORN; mkMon 30 30 SPECIES_NIDORAN_M; mkMon 25 25 SPECIES_EXEGGCUTE; mkMon 27 27 SPECIES_EXEGGCUTE; mkMon 23 23 SPECIES_PARAS; mkMon 30 30 SPECIES_NIDORINO; mkMon 30 30 SPECIES_NIDORINA; mkMon 32 32 SPECIES_VENOMOTH; mkMon 23 23 SPECIES_PARAS; mkMon 26 26 SPECIES_CHANSEY; mkMon 23 23 SPECIES_PARAS; mkMon 28 28 SPECIES_TAUROS]))
     (Some (mkMons 2 [mkMon 20 25 SPECIES_PSYDUCK; mkMon 20 25 SPECIES_PSYDUCK; mkMon 25 30 SPECIES_PSYDUCK; mkMon 30 35 SPECIES_PSYDUCK; mkMon 35 40 SPECIES_PSYDUCK]))
     None
     (Some (mkMons 20 [mkMon 5 5 SPECIES_MAGIKARP; mkMon 5 5 SPECIES_MAGIKARP; mkMon 5 15 SPECIES_GOLDEEN; mkMon 5 15 SPECIES_MAGIKARP; mkMon 5 15 SPECIES_POLIWAG; mkMon 15 25 SPECIES_GOLDEEN; mkMon 20 30 SPECIES_SEAKING; mkMon 15 25 SPECIES_DRATINI; mkMon 15 35 SPECIES_PSYDUCK; mkMon 25 35 SPECIES_DRAGONAIR]));
   mkEnc "MAP_SAFARI_ZONE_WEST" "sSafariZoneWest_FireRed"
     (Some (mkMons 21 [mkMon 26 26 SPECIES_DODUO; mkMon 22 22 SPECIES_NIDORAN_M; mkMon 25 25 SPECIES_EXEGGCUTE; mkMon 27 27 SPECIES_EXEGGCUTE; mkMon 23 23 SPECIES_VENONAT; mkMon 30 30 SPECIES_NIDORINO; mkMon 30 30 SPECIES_NIDORAN_F; mkMon 32 32 SPECIES_VENOMOTH; mkMon 23 23 SPECIES_VENONAT; mkMon 25 25 SPECIES_TAUROS; mkMon 23 23 SPECIES_VENONAT; mkMon 28 28 SPECIES_KANGASKHAN]))
     (Some (mkMons 2 [mkMon 20 25 SPECIES_PSYDUCK; mkMon 20 25 SPECIES_PSYDUCK; mkMon 25 30 SPECIES_PSYDUCK; mkMon 30 35 SPECIES_PSYDUCK; mkMon 35 40 SPECIES_PSYDUCK]))
     None
     (Some (mkMons 20 [mkMon 5 5 SPECIES_MAGIKARP; mkMon 5 5 SPECIES_MAGIKARP; mkMon 5 15 SPECIES_GOLDEEN; mkMon 5 15 SPECIES_MAGIKARP; mkMon 5 15 SPECIES_POLIWAG; mkMon 15 25 SPECIES_GOLDEEN; mkMon 20 30 SPECIES_SEAKING; mkMon 15 25 SPECIES_DRATINI; mkMon 15 35 SPECIES_PSYDUCK; mkMon 25 35 SPECIES_DRAGONAIR]));
   mkEnc "MAP_CERULEAN_CAVE_1F" "sCeruleanCave1F_FireRed"
     (Some (mkMons 7 [mkMon 49 49 SPECIES_MAGNETON; mkMon 49 49 SPECIES_PARASECT; mkMon 46 46 SPECIES_GOLBAT; mkMon 46 46 SPECIES_MACHOKE; mkMon 52 52 SPECIES_PRIMEAPE; mkMon 52 52 SPECIES_DITTO; mkMon 58 58 SPECIES_ELECTRODE; mkMon 58 58 SPECIES_PARASECT; mkMon 55 55 SPECIES_GOLBAT; mkMon 55 55 SPECIES_WOBBUFFET; mkMon 61 61 SPECIES_PRIMEAPE; mkMon 61 61 SPECIES_DITTO]))
     (Some (mkMons 2 [mkMon 30 40 SPECIES_PSYDUCK; mkMon 40 50 SPECIES_GOLDUCK; mkMon 45 55 SPECIES_GOLDUCK; mkMon 40 50 SPECIES_PSYDUCK; mkMon 40 50 SPECIES_PSYDUCK]))
     (Some (mkMons 50 [mkMon 30 40 SPECIES_GEODUDE; mkMon 40 50 SPECIES_GRAVELER; mkMon 45 55 SPECIES_GRAVELER; mkMon 40 50 SPECIES_GEODUDE; mkMon 40 50 SPECIES_GEODUDE]))
     (Some (mkMons 20 [mkMon 5 5 SPECIES_MAGIKARP; mkMon 5 5 SPECIES_MAGIKARP; mkMon 5 15 SPECIES_POLIWAG; mkMon 5 15 SPECIES_MAGIKARP; mkMon 5 15 SPECIES_GOLDEEN; mkMon 15 25 SPECIES_POLIWAG; mkMon 20 30 SPECIES_POLIWHIRL; mkMon 15 25 SPECIES_GYARADOS; mkMon 15 25 SPECIES_PSYDUCK; mkMon 25 35 SPECIES_PSYDUCK]));
   mkEnc "MAP_CERULEAN_CAVE_2F" "sCeruleanCave2F_FireRed"
     (Some (mkMons 7 [mkMon 49 49 SPECIES_GOLBAT; mkMon 49 49 SPECIES_MACHOKE; mkMon 52 52 SPECIES_MAGNETON; mkMon 52 52 SPECIES_PARASECT; mkMon 55 55 SPECIES_KADABRA; mkMon 55 55 SPECIES_DITTO; mkMon 58 58 SPECIES_GOLBAT; mkMon 58 58 SPECIES_WOBBUFFET; mkMon 61 61 SPECIES_ELECTRODE; mkMon 61 61 SPECIES_PARASECT; mkMon 64 64 SPECIES_KADABRA; mkMon 64 64 SPECIES_DITTO]))
     None
     (Some (mkMons 50 [mkMon 35 45 SPECIES_GEODUDE; mkMon 45 55 SPECIES_GRAVELER; mkMon 50 60 SPECIES_GRAVELER; mkMon 45 55 SPECIES_GEODUDE; mkMon 45 55 SPECIES_GEODUDE]))
     None;
   mkEnc "MAP_CERULEAN_CAVE_B1F" "sCeruleanCaveB1F_FireRed"
     (Some (mkMons 7 [mkMon 58 58 SPECIES_KADABRA; mkMon 58 58 SPECIES_DITTO; mkMon 55 55 SPECIES_MAGNETON; mkMon 55 55 SPECIES_PARASECT; mkMon 52 52 SPECIES_GOLBAT; mkMon 52 52 SPECIES_MACHOKE; mkMon 67 67 SPECIES_KADABRA; mkMon 67 67 SPECIES_DITTO; mkMon 64 64 SPECIES_ELECTRODE; mkMon 64 64 SPECIES_PARASECT; mkMon 61 61 SPECIES_GOLBAT; mkMon 61 61 SPECIES_WOBBUFFET]))
     (Some (mkMons 2 [mkMon 40 50 SPECIES_PSYDUCK; mkMon 50 60 SPECIES_GOLDUCK; mkMon 55 65 SPECIES_GOLDUCK; mkMon 50 60 SPECIES_PSYDUCK; mkMon 50 60 SPECIES_PSYDUCK]))
     (Some (mkMons 50 [mkMon 40 50 SPECIES_GEODUDE; mkMon 50 60 SPECIES_GRAVELER; mkMon 55 65 SPECIES_GRAVELER; mkMon 50 60 SPECIES_GEODUDE; mkMon 50 60 SPECIES_GEODUDE]))
     (Some (mkMons 20 [mkMon 5 5 SPECIES_MAGIKARP; mkMon 5 5 SPECIES_MAGIKARP; mkMon 5 15 SPECIES_POLIWAG; mkMon 5 15 SPECIES_MAGIKARP; mkMon 5 15 SPECIES_GOLDEEN; mkMon 15 25 SPECIES_POLIWAG; mkMon 20 30 SPECIES_POLIWHIRL; mkMon 15 25 SPECIES_GYARADOS; mkMon 15 25 SPECIES_PSYDUCK; mkMon 25 35 SPECIES_GYARADOS]));
   mkEnc "MAP_ROCK_TUNNEL_1F" "sRockTunnel1F_FireRed"
     (Some (mkMons 7 [mkMon 15 15 SPECIES_ZUBAT; mkMon 16 16 SPECIES_GEODUDE; mkMon 16 16 SPECIES_MANKEY; mkMon 17 17 SPECIES_GEODUDE; mkMon 16 16 SPECIES_ZUBAT; mkMon 16 16 SPECIES_MACHOP; mkMon 17 17 SPECIES_MANKEY; mkMon 17 17 SPECIES_MACHOP; mkMon 15 15 SPECIES_GEODUDE; mkMon 13 13 SPECIES_ONIX; mkMon 15 15 SPECIES_GEODUDE; mkMon 15 15 SPECIES_ONIX]))
     None
     None
     None;
   mkEnc "MAP_ROCK_TUNNEL_B1F" "sRockTunnelB1F_FireRed"
     (Some (mkMons 7 [mkMon 16 16 SPECIES_ZUBAT; mkMon 17 17 SPECIES_GEODUDE; mkMon 17 17 SPECIES_MANKEY; mkMon 16 16 SPECIES_GEODUDE; mkMon 15 15 SPECIES_ZUBAT; mkMon 17 17 SPECIES_MACHOP; mkMon 16 16 SPECIES_MANKEY; mkMon 13 13 SPECIES_ONIX; mkMon 15 15 SPECIES_GEODUDE; mkMon 15 15 SPECIES_ONIX; mkMon 15 15 SPECIES_GEODUDE; mkMon 17 17 SPECIES_ONIX]))
     None
     (Some (mkMons 50 [mkMon 5 20 SPECIES_GEODUDE; mkMon 10 20 SPECIES_GEODUDE; mkMon 15 30 SPECIES_GEODUDE; mkMon 25 40 SPECIES_GRAVELER; mkMon 30 40 SPECIES_GRAVELER]))
     None;
   mkEnc "MAP_SEAFOAM_ISLANDS_1F" "sSeafoamIslands1F_FireRed"
     (Some (mkMons 7 [mkMon 27 27 SPECIES_PSYDUCK; mkMon 29 29 SPECIES_PSYDUCK; mkMon 31 31 SPECIES_PSYDUCK; mkMon 22 22 SPECIES_ZUBAT; mkMon 22 22 SPECIES_ZUBAT; mkMon 24 24 SPECIES_ZUBAT; mkMon 26 26 SPECIES_GOLBAT; mkMon 28 28 SPECIES_GOLBAT; mkMon 33 33 SPECIES_PSYDUCK; mkMon 26 26 SPECIES_ZUBAT; mkMon 26 26 SPECIES_PSYDUCK; mkMon 30 30 SPECIES_GOLBAT]))
     None
     None
     None;
   mkEnc "MAP_SEAFOAM_ISLANDS_B1F" "sSeafoamIslandsB1F_FireRed"
     (Some (mkMons 7 [mkMon 29 29 SPECIES_PSYDUCK; mkMon 31 31 SPECIES_PSYDUCK; mkMon 28 28 SPECIES_SEEL; mkMon 22 22 SPECIES_ZUBAT; mkMon 22 22 SPECIES_ZUBAT; mkMon 24 24 SPECIES_ZUBAT; mkMon 26 26 SPECIES_GOLBAT; mkMon 28 28 SPECIES_GOLBAT; mkMon 33 33 SPECIES_GOLDUCK; mkMon 26 26 SPECIES_ZUBAT; mkMon 35 35 SPECIES_GOLDUCK; mkMon 30 30 SPECIES_GOLBAT]))
     None
     None
     None;
   mkEnc "MAP_SEAFOAM_ISLANDS_B2F" "sSeafoamIslandsB2F_FireRed"
     (Some (mkMons 7 [mkMon 30 30 SPECIES_PSYDUCK; mkMon 32 32 SPECIES_PSYDUCK; mkMon 30 30 SPECIES_SEEL; mkMon 32 32 SPECIES_SEEL; mkMon 22 22 SPECIES_ZUBAT; mkMon 24 24 SPECIES_ZUBAT; mkMon 26 26 SPECIES_GOLBAT; mkMon 34 34 SPECIES_GOLDUCK; mkMon 32 32 SPECIES_GOLDUCK; mkMon 28 28 SPECIES_GOLBAT; mkMon 32 32 SPECIES_GOLDUCK; mkMon 30 30 SPECIES_GOLBAT]))
     None
     None
     None;
   mkEnc "MAP_SEAFOAM_ISLANDS_B3F" "sSeafoamIslandsB3F_FireRed"
     (Some (mkMons 7 [mkMon 30 30 SPECIES_SEEL; mkMon 32 32 SPECIES_SEEL; mkMon 32 32 SPECIES_PSYDUCK; mkMon 30 30 SPECIES_PSYDUCK; mkMon 32 32 SPECIES_GOLDUCK; mkMon 24 24 SPECIES_ZUBAT; mkMon 26 26 SPECIES_GOLBAT; mkMon 34 34 SPECIES_GOLDUCK; mkMon 32 32 SPECIES_DEWGONG; mkMon 28 28 SPECIES_GOLBAT; mkMon 34 34 SPECIES_DEWGONG; mkMon 30 30 SPECIES_GOLBAT]))
     (Some (mkMons 2 [mkMon 25 35 SPECIES_SEEL; mkMon 25 30 SPECIES_HORSEA; mkMon 35 40 SPECIES_DEWGONG; mkMon 30 40 SPECIES_PSYDUCK; mkMon 35 40 SPECIES_GOLDUCK]))
     None
     (Some (mkMons 20 [mkMon 5 5 SPECIES_MAGIKARP; mkMon 5 5 SPECIES_MAGIKARP; mkMon 5 15 SPECIES_HORSEA; mkMon 5 15 SPECIES_MAGIKARP; mkMon 5 15 SPECIES_KRABBY; mkMon 15 25 SPECIES_HORSEA; mkMon 20 30 SPECIES_HORSEA; mkMon 15 25 SPECIES_GYARADOS; mkMon 15 25 SPECIES_PSYDUCK; mkMon 25 35 SPECIES_GYARADOS]));
   mkEnc "MAP_SEAFOAM_ISLANDS_B4F" "sSeafoamIslandsB4F_FireRed"
     (Some (mkMons 7 [mkMon 30 30 SPECIES_SEEL; mkMon 32 32 SPECIES_SEEL; mkMon 32 32 SPECIES_PSYDUCK; mkMon 34 34 SPECIES_SEEL; mkMon 32 32 SPECIES_GOLDUCK; mkMon 26 26 SPECIES_GOLBAT; mkMon 34 34 SPECIES_DEWGONG; mkMon 34 34 SPECIES_GOLDUCK; mkMon 36 36 SPECIES_DEWGONG; mkMon 28 28 SPECIES_GOLBAT; mkMon 36 36 SPECIES_DEWGONG; mkMon 30 30 SPECIES_GOLBAT]))
     (Some (mkMons 2 [mkMon 25 35 SPECIES_SEEL; mkMon 25 30 SPECIES_HORSEA; mkMon 35 40 SPECIES_DEWGONG; mkMon 30 40 SPECIES_PSYDUCK; mkMon 35 40 SPECIES_GOLDUCK]))
     None
     (Some (mkMons 20 [mkMon 5 5 SPECIES_MAGIKARP; mkMon 5 5 SPECIES_MAGIKARP; mkMon 5 15 SPECIES_HORSEA; mkMon 5 15 SPECIES_MAGIKARP; mkMon 5 15 SPECIES_KRABBY; mkMon 15 25 SPECIES_HORSEA; mkMon 20 30 SPECIES_HORSEA; mkMon 15 25 SPECIES_GYARADOS; mkMon 15 25 SPECIES_PSYDUCK; mkMon 25 35 SPECIES_GYARADOS]));
   mkEnc "MAP_POKEMON_TOWER_3F" "sPokemonTower3F_FireRed"
     (Some (mkMons 2 [mkMon 15 15 SPECIES_GASTLY; mkMon 16 16 SPECIES_GASTLY; mkMon 17 17 SPECIES_GASTLY; mkMon 13 13 SPECIES_GASTLY; mkMon 14 14 SPECIES_GASTLY; mkMon 18 18 SPECIES_GASTLY; mkMon 19 19 SPECIES_GASTLY; mkMon 15 15 SPECIES_CUBONE; mkMon 17 17 SPECIES_GASTLY; mkMon 17 17 SPECIES_CUBONE; mkMon 17 17 SPECIES_GASTLY; mkMon 20 20 SPECIES_HAUNTER]))
     None
     None
     None;
   mkEnc "MAP_POKEMON_TOWER_4F" "sPokemonTower4F_FireRed"
     (Some (mkMons 4 [mkMon 15 15 SPECIES_GASTLY; mkMon 16 16 SPECIES_GASTLY; mkMon 17 17 SPECIES_GASTLY; mkMon 13 13 SPECIES_GASTLY; mkMon 14 14 SPECIES_GASTLY; mkMon 18 18 SPECIES_GASTLY; mkMon 20 20 SPECIES_HAUNTER; mkMon 15 15 SPECIES_CUBONE; mkMon 17 17 SPECIES_GASTLY; mkMon 17 17 SPECIES_CUBONE; mkMon 17 17 SPECIES_GASTLY; mkMon 19 19 SPECIES_GASTLY]))
     None
     None
     None;
   mkEnc "MAP_POKEMON_TOWER_5F" "sPokemonTower5F_FireRed"
     (Some (mkMons 6 [mkMon 15 15 SPECIES_GASTLY; mkMon 16 16 SPECIES_GASTLY; mkMon 17 17 SPECIES_GASTLY; mkMon 13 13 SPECIES_GASTLY; mkMon 14 14 SPECIES_GASTLY; mkMon 18 18 SPECIES_GASTLY; mkMon 20 20 SPECIES_HAUNTER; mkMon 15 15 SPECIES_CUBONE; mkMon 17 17 SPECIES_GASTLY; mkMon 17 17 SPECIES_CUBONE; mkMon 17 17 SPECIES_GASTLY; mkMon 19 19 SPECIES_GASTLY]))
     None
     None
     None;
   mkEnc "MAP_POKEMON_TOWER_6F" "sPokemonTower6F_FireRed"
     (Some (mkMons 8 [mkMon 16 16 SPECIES_GASTLY; mkMon 17 17 SPECIES_GASTLY; mkMon 18 18 SPECIES_GASTLY; mkMon 14 14 SPECIES_GASTLY; mkMon 15 15 SPECIES_GASTLY; mkMon 19 19 SPECIES_GASTLY; mkMon 21 21 SPECIES_HAUNTER; mkMon 17 17 SPECIES_CUBONE; mkMon 18 18 SPECIES_GASTLY; mkMon 19 19 SPECIES_CUBONE; mkMon 18 18 SPECIES_GASTLY; mkMon 23 23 SPECIES_HAUNTER]))
     None
     None
     None;
   mkEnc "MAP_POKEMON_TOWER_7F" "sPokemonTower7F_FireRed"
     (Some (mkMons 10 [mkMon 16 16 SPECIES_GASTLY; mkMon 17 17 SPECIES_GASTLY; mkMon 18 18 SPECIES_GASTLY; mkMon 15 15 SPECIES_GASTLY; mkMon 19 19 SPECIES_GASTLY; mkMon 23 23 SPECIES_HAUNTER; mkMon 17 17 SPECIES_CUBONE; mkMon 19 19 SPECIES_CUBONE; mkMon 18 18 SPECIES_GASTLY; mkMon 23 23 SPECIES_HAUNTER; mkMon 18 18 SPECIES_GASTLY; mkMon 25 25 SPECIES_HAUNTER]))
     None
     None
     None;
   mkEnc "MAP_POWER_PLANT" "sPowerPlant_FireRed"
     (Some (mkMons 7 [mkMon 22 22 SPECIES_VOLTORB; mkMon 22 22 SPECIES_MAGNEMITE; mkMon 25 25 SPECIES_VOLTORB; mkMon 25 25 SPECIES_MAGNEMITE; mkMon 22 22 SPECIES_PIKACHU; mkMon 24 24 SPECIES_PIKACHU; mkMon 31 31 SPECIES_MAGNETON; mkMon 34 34 SPECIES_MAGNETON; mkMon 26 26 SPECIES_PIKACHU; mkMon 32 32 SPECIES_ELECTABUZZ; mkMon 26 26 SPECIES_PIKACHU; mkMon 35 35 SPECIES_ELECTABUZZ]))
     None
     None
     None;
   mkEnc "MAP_MT_EMBER_EXTERIOR" "sMtEmberExterior_FireRed"
     (Some (mkMons 21 [mkMon 30 30 SPECIES_PONYTA; mkMon 38 38 SPECIES_FEAROW; mkMon 33 33 SPECIES_PONYTA; mkMon 32 32 SPECIES_SPEAROW; mkMon 35 35 SPECIES_MACHOP; mkMon 33 33 SPECIES_GEODUDE; mkMon 36 36 SPECIES_PONYTA; mkMon 40 40 SPECIES_FEAROW; mkMon 30 30 SPECIES_SPEAROW; mkMon 39 39 SPECIES_RAPIDASH; mkMon 30 30 SPECIES_SPEAROW; mkMon 42 42 SPECIES_RAPIDASH]))
     None
     (Some (mkMons 50 [mkMon 5 20 SPECIES_GEODUDE; mkMon 10 20 SPECIES_GEODUDE; mkMon 15 30 SPECIES_GEODUDE; mkMon 25 40 SPECIES_GRAVELER; mkMon 30 40 SPECIES_GRAVELER]))
     None;
   mkEnc "MAP_MT_EMBER_SUMMIT_PATH_1F" "sMtEmberSummitPath1F_FireRed"
     (Some (mkMons 7 [mkMon 33 33 SPECIES_GEODUDE; mkMon 35 35 SPECIES_MACHOP; mkMon 29 29 SPECIES_GEODUDE; mkMon 31 31 SPECIES_GEODUDE; mkMon 31 31 SPECIES_MACHOP; mkMon 33 33 SPECIES_MACHOP; mkMon 35 35 SPECIES_GEODUDE; mkMon 37 37 SPECIES_MACHOP; mkMon 37 37 SPECIES_GEODUDE; mkMon 39 39 SPECIES_MACHOP; mkMon 37 37 SPECIES_GEODUDE; mkMon 39 39 SPECIES_MACHOP]))
     None
     None
     None;
   mkEnc "MAP_MT_EMBER_SUMMIT_PATH_2F" "sMtEmberSummitPath2F_FireRed"
     (Some (mkMons 7 [mkMon 34 34 SPECIES_GEODUDE; mkMon 36 36 SPECIES_MACHOP; mkMon 30 30 SPECIES_GEODUDE; mkMon 32 32 SPECIES_GEODUDE; mkMon 32 32 SPECIES_MACHOP; mkMon 34 34 SPECIES_MACHOP; mkMon 38 38 SPECIES_MACHOKE; mkMon 38 38 SPECIES_MACHOKE; mkMon 40 40 SPECIES_MACHOKE; mkMon 40 40 SPECIES_MACHOKE; mkMon 40 40 SPECIES_MACHOKE; mkMon 40 40 SPECIES_MACHOKE]))
     None
     (Some (mkMons 50 [mkMon 5 20 SPECIES_GEODUDE; mkMon 10 20 SPECIES_GEODUDE; mkMon 15 30 SPECIES_GEODUDE; mkMon 25 40 SPECIES_GRAVELER; mkMon 30 40 SPECIES_GRAVELER]))
     None;
   mkEnc "MAP_MT_EMBER_SUMMIT_PATH_3F" "sMtEmberSummitPath3F_FireRed"
     (Some (mkMons 7 [mkMon 33 33 SPECIES_GEODUDE; mkMon 35 35 SPECIES_MACHOP; mkMon 29 29 SPECIES_GEODUDE; mkMon 31 31 SPECIES_GEODUDE; mkMon 31 31 SPECIES_MACHOP; mkMon 33 33 SPECIES_MACHOP; mkMon 35 35 SPECIES_GEODUDE; mkMon 37 37 SPECIES_MACHOP; mkMon 37 37 SPECIES_GEODUDE; mkMon 39 39 SPECIES_MACHOP; mkMon 37 37 SPECIES_GEODUDE; mkMon 39 39 SPECIES_MACHOP]))
     None
     None
     None;
   mkEnc "MAP_MT_EMBER_RUBY_PATH_1F" "sMtEmberRubyPath1F_FireRed"
     (Some (mkMons 7 [mkMon 36 36 SPECIES_GEODUDE; mkMon 38 38 SPECIES_MACHOP; mkMon 32 32 SPECIES_GEODUDE; mkMon 34 34 SPECIES_GEODUDE; mkMon 34 34 SPECIES_MACHOP; mkMon 36 36 SPECIES_MACHOP; mkMon 38 38 SPECIES_GEODUDE; mkMon 40 40 SPECIES_MACHOKE; mkMon 40 40 SPECIES_GEODUDE; mkMon 42 42 SPECIES_MACHOKE; mkMon 40 40 SPECIES_GEODUDE; mkMon 42 42 SPECIES_MACHOKE]))
     None
     (Some (mkMons 50 [mkMon 25 35 SPECIES_GEODUDE; mkMon 30 45 SPECIES_GRAVELER; mkMon 35 50 SPECIES_GRAVELER; mkMon 30 40 SPECIES_GEODUDE; mkMon 30 40 SPECIES_GEODUDE]))
     None;
   mkEnc "MAP_MT_EMBER_RUBY_PATH_B1F" "sMtEmberRubyPathB1F_FireRed"
     (Some (mkMons 7 [mkMon 38 38 SPECIES_GEODUDE; mkMon 36 36 SPECIES_GEODUDE; mkMon 34 34 SPECIES_GEODUDE; mkMon 40 40 SPECIES_GEODUDE; mkMon 24 24 SPECIES_SLUGMA; mkMon 26 26 SPECIES_SLUGMA; mkMon 42 42 SPECIES_GEODUDE; mkMon 28 28 SPECIES_SLUGMA; mkMon 42 42 SPECIES_GEODUDE; mkMon 30 30 SPECIES_SLUGMA; mkMon 42 42 SPECIES_GEODUDE; mkMon 30 30 SPECIES_SLUGMA]))
     None
     (Some (mkMons 50 [mkMon 25 35 SPECIES_GEODUDE; mkMon 30 45 SPECIES_GRAVELER; mkMon 35 50 SPECIES_GRAVELER; mkMon 30 40 SPECIES_GEODUDE; mkMon 30 40 SPECIES_GEODUDE]))
     None;
   mkEnc "MAP_MT_EMBER_RUBY_PATH_B2F" "sMtEmberRubyPathB2F_FireRed"
     (Some (mkMons 7 [mkMon 40 40 SPECIES_GEODUDE; mkMon 26 26 SPECIES_SLUGMA; mkMon 42 42 SPECIES_GEODUDE; mkMon 24 24 SPECIES_SLUGMA; mkMon 28 28 SPECIES_SLUGMA; mkMon 30 30 SPECIES_SLUGMA; mkMon 44 44 SPECIES_GEODUDE; mkMon 32 32 SPECIES_SLUGMA; mkMon 44 44 SPECIES_GEODUDE; mkMon 22 22 SPECIES_SLUGMA; mkMon 44 44 SPECIES_GEODUDE; mkMon 22 22 SPECIES_SLUGMA]))
     None
     (Some (mkMons 50 [mkMon 25 35 SPECIES_GEODUDE; mkMon 30 45 SPECIES_GRAVELER; mkMon 35 50 SPECIES_GRAVELER; mkMon 30 40 SPECIES_GEODUDE; mkMon 30 40 SPECIES_GEODUDE]))
     None;
   mkEnc "MAP_MT_EMBER_RUBY_PATH_B3F" "sMtEmberRubyPathB3F_FireRed"
     (Some (mkMons 7 [mkMon 26 26 SPECIES_SLUGMA; mkMon 28 28 SPECIES_SLUGMA; mkMon 30 30 SPECIES_SLUGMA; mkMon 32 32 SPECIES_SLUGMA; mkMon 24 24 SPECIES_SLUGMA; mkMon 22 22 SPECIES_SLUGMA; mkMon 20 20 SPECIES_SLUGMA; mkMon 34 34 SPECIES_SLUGMA; mkMon 36 36 SPECIES_SLUGMA; mkMon 18 18 SPECIES_SLUGMA; mkMon 36 36 SPECIES_SLUGMA; mkMon 18 18 SPECIES_SLUGMA]))
     None
     (Some (mkMons 50 [mkMon 15 25 SPECIES_SLUGMA; mkMon 25 35 SPECIES_SLUGMA; mkMon 40 45 SPECIES_MAGCARGO; mkMon 35 45 SPECIES_MAGCARGO; mkMon 25 35 SPECIES_MAGCARGO]))
     None;
   mkEnc "MAP_MT_EMBER_RUBY_PATH_B1F_STAIRS" "sMtEmberRubyPathB1FStairs_FireRed"
     (Some (mkMons 7 [mkMon 40 40 SPECIES_GEODUDE; mkMon 26 26 SPECIES_SLUGMA; mkMon 42 42 SPECIES_GEODUDE; mkMon 24 24 SPECIES_SLUGMA; mkMon 28 28 SPECIES_SLUGMA; mkMon 30 30 SPECIES_SLUGMA; mkMon 44 44 SPECIES_GEODUDE; mkMon 32 32 SPECIES_SLUGMA; mkMon 44 44 SPECIES_GEODUDE; mkMon 22 22 SPECIES_SLUGMA; mkMon 44 44 SPECIES_GEODUDE; mkMon 22 22 SPECIES_SLUGMA]))
     None
     (Some (mkMons 50 [mkMon 25 35 SPECIES_GEODUDE; mkMon 30 45 SPECIES_GRAVELER; mkMon 35 50 SPECIES_GRAVELER; mkMon 30 40 SPECIES_GEODUDE; mkMon 30 40 SPECIES_GEODUDE]))
     None;
   mkEnc "MAP_MT_EMBER_RUBY_PATH_B2F_STAIRS" "sMtEmberRubyPathB2FStairs_FireRed"
     (Some (mkMons 7 [mkMon 38 38 SPECIES_GEODUDE; mkMon 36 36 SPECIES_GEODUDE; mkMon 34 34 SPECIES_GEODUDE; mkMon 40 40 SPECIES_GEODUDE; mkMon 24 24 SPECIES_SLUGMA; mkMon 26 26 SPECIES_SLUGMA; mkMon 42 42 SPECIES_GEODUDE; mkMon 28 28 SPECIES_SLUGMA; mkMon 42 42 SPECIES_GEODUDE; mkMon 30 30 SPECIES_SLUGMA; mkMon 42 42 SPECIES_GEODUDE; mkMon 30 30 SPECIES_SLUGMA]))
     None
     (Some (mkMons 50 [mkMon 25 35 SPECIES_GEODUDE; mkMon 30 45 SPECIES_GRAVELER; mkMon 35 50 SPECIES_GRAVELER; mkMon 30 40 SPECIES_GEODUDE; mkMon 30 40 SPECIES_GEODUDE]))
     None;
   mkEnc "MAP_THREE_ISLAND_BERRY_FOREST" "sThreeIslandBerryForest_FireRed"
     (Some (mkMons 21 [mkMon 37 37 SPECIES_PIDGEOTTO; mkMon 35 35 SPECIES_GLOOM; mkMon 32 32 SPECIES_PIDGEY; mkMon 30 30 SPECIES_ODDISH; mkMon 34 34 SPECIES_VENONAT; mkMon 34 34 SPECIES_DROWZEE; mkMon 35 35 SPECIES_EXEGGCUTE; mkMon 31 31 SPECIES_PSYDUCK; mkMon 37 37 SPECIES_VENOMOTH; mkMon 37 37 SPECIES_HYPNO; mkMon 40 40 SPECIES_VENOMOTH; mkMon 40 40 SPECIES_HYPNO]))
     (Some (mkMons 2 [mkMon 5 20 SPECIES_PSYDUCK; mkMon 20 35 SPECIES_PSYDUCK; mkMon 35 40 SPECIES_PSYDUCK; mkMon 35 40 SPECIES_GOLDUCK; mkMon 35 40 SPECIES_GOLDUCK]))
     None
     (Some (mkMons 20 [mkMon 5 5 SPECIES_MAGIKARP; mkMon 5 5 SPECIES_MAGIKARP; mkMon 5 15 SPECIES_GOLDEEN; mkMon 5 15 SPECIES_MAGIKARP; mkMon 5 15 SPECIES_POLIWAG; mkMon 15 25 SPECIES_GOLDEEN; mkMon 20 30 SPECIES_SEAKING; mkMon 15 25 SPECIES_GYARADOS; mkMon 15 25 SPECIES_PSYDUCK; mkMon 25 35 SPECIES_PSYDUCK]));
   mkEnc "MAP_FOUR_ISLAND_ICEFALL_CAVE_ENTRANCE" "sFourIslandIcefallCaveEntrance_FireRed"
     (Some (mkMons 7 [mkMon 43 43 SPECIES_SEEL; mkMon 45 45 SPECIES_GOLBAT; mkMon 45 45 SPECIES_SEEL; mkMon 47 47 SPECIES_SEEL; mkMon 40 40 SPECIES_ZUBAT; mkMon 49 49 SPECIES_DEWGONG; mkMon 51 51 SPECIES_DEWGONG; mkMon 41 41 SPECIES_PSYDUCK; mkMon 48 48 SPECIES_GOLBAT; mkMon 53 53 SPECIES_DEWGONG; mkMon 48 48 SPECIES_GOLBAT; mkMon 53 53 SPECIES_DEWGONG]))
     (Some (mkMons 2 [mkMon 5 35 SPECIES_SEEL; mkMon 5 35 SPECIES_PSYDUCK; mkMon 35 40 SPECIES_DEWGONG; mkMon 5 15 SPECIES_WOOPER; mkMon 5 15 SPECIES_WOOPER]))
     None
     (Some (mkMons 20 [mkMon 5 5 SPECIES_MAGIKARP; mkMon 5 5 SPECIES_MAGIKARP; mkMon 5 15 SPECIES_POLIWAG; mkMon 5 15 SPECIES_MAGIKARP; mkMon 5 15 SPECIES_GOLDEEN; mkMon 15 25 SPECIES_POLIWAG; mkMon 20 30 SPECIES_POLIWHIRL; mkMon 15 25 SPECIES_GYARADOS; mkMon 15 25 SPECIES_PSYDUCK; mkMon 25 35 SPECIES_PSYDUCK]));
   mkEnc "MAP_FOUR_ISLAND_ICEFALL_CAVE_1F" "sFourIslandIcefallCave1F_FireRed"
     (Some (mkMons 7 [mkMon 25 25 SPECIES_SWINUB; mkMon 45 45 SPECIES_GOLBAT; mkMon 45 45 SPECIES_SEEL; mkMon 27 27 SPECIES_SWINUB; mkMon 40 40 SPECIES_ZUBAT; mkMon 29 29 SPECIES_SWINUB; mkMon 30 30 SPECIES_DELIBIRD; mkMon 31 31 SPECIES_SWINUB; mkMon 48 48 SPECIES_GOLBAT; mkMon 23 23 SPECIES_SWINUB; mkMon 48 48 SPECIES_GOLBAT; mkMon 23 23 SPECIES_SWINUB]))
     None
     None
     None;
   mkEnc "MAP_FOUR_ISLAND_ICEFALL_CAVE_B1F" "sFourIslandIcefallCaveB1F_FireRed"
     (Some (mkMons 7 [mkMon 25 25 SPECIES_SWINUB; mkMon 45 45 SPECIES_GOLBAT; mkMon 45 45 SPECIES_SEEL; mkMon 27 27 SPECIES_SWINUB; mkMon 40 40 SPECIES_ZUBAT; mkMon 29 29 SPECIES_SWINUB; mkMon 30 30 SPECIES_DELIBIRD; mkMon 31 31 SPECIES_SWINUB; mkMon 48 48 SPECIES_GOLBAT; mkMon 23 23 SPECIES_SWINUB; mkMon 48 48 SPECIES_GOLBAT; mkMon 23 23 SPECIES_SWINUB]))
     None
     None
     None;
   mkEnc "MAP_FOUR_ISLAND_ICEFALL_CAVE_BACK" "sFourIslandIcefallCaveBack_FireRed"
     (Some (mkMons 7 [mkMon 43 43 SPECIES_SEEL; mkMon 45 45 SPECIES_GOLBAT; mkMon 45 45 SPECIES_SEEL; mkMon 47 47 SPECIES_SEEL; mkMon 40 40 SPECIES_ZUBAT; mkMon 49 49 SPECIES_DEWGONG; mkMon 51 51 SPECIES_DEWGONG; mkMon 41 41 SPECIES_PSYDUCK; mkMon 48 48 SPECIES_GOLBAT; mkMon 53 53 SPECIES_DEWGONG; mkMon 48 48 SPECIES_GOLBAT; mkMon 53 53 SPECIES_DEWGONG]))
     (Some (mkMons 2 [mkMon 5 20 SPECIES_TENTACOOL; mkMon 20 35 SPECIES_TENTACOOL; mkMon 35 45 SPECIES_TENTACOOL; mkMon 35 45 SPECIES_TENTACRUEL; mkMon 30 45 SPECIES_LAPRAS]))
     None
     (Some (mkMons 20 [mkMon 5 5 SPECIES_MAGIKARP; mkMon 5 5 SPECIES_MAGIKARP; mkMon 5 15 SPECIES_HORSEA; mkMon 5 15 SPECIES_MAGIKARP; mkMon 5 15 SPECIES_HORSEA; mkMon 15 25 SPECIES_HORSEA; mkMon 15 25 SPECIES_SHELLDER; mkMon 15 25 SPECIES_GYARADOS; mkMon 25 35 SPECIES_SEADRA; mkMon 25 35 SPECIES_PSYDUCK]));
   mkEnc "MAP_SIX_ISLAND_PATTERN_BUSH" "sSixIslandPatternBush_FireRed"
     (Some (mkMons 21 [mkMon 9 9 SPECIES_SPINARAK; mkMon 9 9 SPECIES_KAKUNA; mkMon 14 14 SPECIES_SPINARAK; mkMon 6 6 SPECIES_CATERPIE; mkMon 6 6 SPECIES_WEEDLE; mkMon 15 15 SPECIES_HERACROSS; mkMon 9 9 SPECIES_METAPOD; mkMon 20 20 SPECIES_HERACROSS; mkMon 9 9 SPECIES_LEDYBA; mkMon 25 25 SPECIES_HERACROSS; mkMon 14 14 SPECIES_LEDYBA; mkMon 30 30 SPECIES_HERACROSS]))
     None
     None
     None;
   mkEnc "MAP_FIVE_ISLAND_LOST_CAVE_ROOM1" "sFiveIslandLostCaveRoom1_FireRed"
     (Some (mkMons 1 [mkMon 40 40 SPECIES_GASTLY; mkMon 37 37 SPECIES_ZUBAT; mkMon 44 44 SPECIES_HAUNTER; mkMon 46 46 SPECIES_HAUNTER; mkMon 41 41 SPECIES_GOLBAT; mkMon 43 43 SPECIES_GOLBAT; mkMon 38 38 SPECIES_GASTLY; mkMon 48 48 SPECIES_HAUNTER; mkMon 50 50 SPECIES_HAUNTER; mkMon 22 22 SPECIES_MURKROW; mkMon 52 52 SPECIES_HAUNTER; mkMon 22 22 SPECIES_MURKROW]))
     None
     None
     None;
   mkEnc "MAP_FIVE_ISLAND_LOST_CAVE_ROOM2" "sFiveIslandLostCaveRoom2_FireRed"
     (Some (mkMons 2 [mkMon 40 40 SPECIES_GASTLY; mkMon 37 37 SPECIES_ZUBAT; mkMon 44 44 SPECIES_HAUNTER; mkMon 46 46 SPECIES_HAUNTER; mkMon 41 41 SPECIES_GOLBAT; mkMon 43 43 SPECIES_GOLBAT; mkMon 38 38 SPECIES_GASTLY; mkMon 48 48 SPECIES_HAUNTER; mkMon 50 50 SPECIES_HAUNTER; mkMon 22 22 SPECIES_MURKROW; mkMon 52 52 SPECIES_HAUNTER; mkMon 22 22 SPECIES_MURKROW]))
     None
     None
     None;
   mkEnc "MAP_FIVE_ISLAND_LOST_CAVE_ROOM3" "sFiveIslandLostCaveRoom3_FireRed"
     (Some (mkMons 3 [mkMon 40 40 SPECIES_GASTLY; mkMon 37 37 SPECIES_ZUBAT; mkMon 44 44 SPECIES_HAUNTER; mkMon 46 46 SPECIES_HAUNTER; mkMon 41 41 SPECIES_GOLBAT; mkMon 43 43 SPECIES_GOLBAT; mkMon 38 38 SPECIES_GASTLY; mkMon 48 48 SPECIES_HAUNTER; mkMon 50 50 SPECIES_HAUNTER; mkMon 22 22 SPECIES_MURKROW; mkMon 52 52 SPECIES_HAUNTER; mkMon 22 22 SPECIES_MURKROW]))
     None
     None
     None;
   mkEnc "MAP_FIVE_ISLAND_LOST_CAVE_ROOM4" "sFiveIslandLostCaveRoom4_FireRed"
     (Some (mkMons 4 [mkMon 40 40 SPECIES_GASTLY; mkMon 37 37 SPECIES_ZUBAT; mkMon 44 44 SPECIES_HAUNTER; mkMon 46 46 SPECIES_HAUNTER; mkMon 41 41 SPECIES_GOLBAT; mkMon 43 43 SPECIES_GOLBAT; mkMon 38 38 SPECIES_GASTLY; mkMon 48 48 SPECIES_HAUNTER; mkMon 50 50 SPECIES_HAUNTER; mkMon 22 22 SPECIES_MURKROW; mkMon 52 52 SPECIES_HAUNTER; mkMon 22 22 SPECIES_MURKROW]))
     None
     None
     None;
   mkEnc "MAP_FIVE_ISLAND_LOST_CAVE_ROOM5" "sFiveIslandLostCaveRoom5_FireRed"
     (Some (mkMons 5 [mkMon 40 40 SPECIES_GASTLY; mkMon 37 37 SPECIES_ZUBAT; mkMon 44 44 SPECIES_HAUNTER; mkMon 46 46 SPECIES_HAUNTER; mkMon 41 41 SPECIES_GOLBAT; mkMon 43 43 SPECIES_GOLBAT; mkMon 38 38 SPECIES_GASTLY; mkMon 48 48 SPECIES_HAUNTER; mkMon 50 50 SPECIES_HAUNTER; mkMon 22 22 SPECIES_MURKROW; mkMon 52 52 SPECIES_HAUNTER; mkMon 22 22 SPECIES_MURKROW]))
     None
     None
     None;
   mkEnc "MAP_FIVE_ISLAND_LOST_CAVE_ROOM6" "sFiveIslandLostCaveRoom6_FireRed"
     (Some (mkMons 6 [mkMon 40 40 SPECIES_GASTLY; mkMon 37 37 SPECIES_ZUBAT; mkMon 44 44 SPECIES_HAUNTER; mkMon 46 46 SPECIES_HAUNTER; mkMon 41 41 SPECIES_GOLBAT; mkMon 43 43 SPECIES_GOLBAT; mkMon 38 38 SPECIES_GASTLY; mkMon 48 48 SPECIES_HAUNTER; mkMon 50 50 SPECIES_HAUNTER; mkMon 22 22 SPECIES_MURKROW; mkMon 52 52 SPECIES_HAUNTER; mkMon 22 22 SPECIES_MURKROW]))
     None
     None
     None;
   mkEnc "MAP_FIVE_ISLAND_LOST_CAVE_ROOM7" "sFiveIslandLostCaveRoom7_FireRed"
     (Some (mkMons 7 [mkMon 40 40 SPECIES_GASTLY; mkMon 37 37 SPECIES_ZUBAT; mkMon 44 44 SPECIES_HAUNTER; mkMon 46 46 SPECIES_HAUNTER; mkMon 41 41 SPECIES_GOLBAT; mkMon 43 43 SPECIES_GOLBAT; mkMon 38 38 SPECIES_GASTLY; mkMon 48 48 SPECIES_HAUNTER; mkMon 50 50 SPECIES_HAUNTER; mkMon 22 22 SPECIES_MURKROW; mkMon 52 52 SPECIES_HAUNTER; mkMon 22 22 SPECIES_MURKROW]))
     None
     None
     None;
   mkEnc "MAP_FIVE_ISLAND_LOST_CAVE_ROOM8" "sFiveIslandLostCaveRoom8_FireRed"
     (Some (mkMons 8 [mkMon 40 40 SPECIES_GASTLY; mkMon 37 37 SPECIES_ZUBAT; mkMon 44 44 SPECIES_HAUNTER; mkMon 46 46 SPECIES_HAUNTER; mkMon 41 41 SPECIES_GOLBAT; mkMon 43 43 SPECIES_GOLBAT; mkMon 38 38 SPECIES_GASTLY; mkMon 48 48 SPECIES_HAUNTER; mkMon 50 50 SPECIES_HAUNTER; mkMon 22 22 SPECIES_MURKROW; mkMon 52 52 SPECIES_HAUNTER; mkMon 22 22 SPECIES_MURKROW]))
     None
     None
     None;
   mkEnc "MAP_FIVE_ISLAND_LOST_CAVE_ROOM9" "sFiveIslandLostCaveRoom9_FireRed"
     (Some (mkMons 9 [mkMon 40 40 SPECIES_GASTLY; mkMon 37 37 SPECIES_ZUBAT; mkMon 44 44 SPECIES_HAUNTER; mkMon 46 46 SPECIES_HAUNTER; mkMon 41 41 SPECIES_GOLBAT; mkMon 43 43 SPECIES_GOLBAT; mkMon 38 38 SPECIES_GASTLY; mkMon 48 48 SPECIES_HAUNTER; mkMon 50 50 SPECIES_HAUNTER; mkMon 22 22 SPECIES_MURKROW; mkMon 52 52 SPECIES_HAUNTER; mkMon 22 22 SPECIES_MURKROW]))
     None
     None
     None;
   mkEnc "MAP_FIVE_ISLAND_LOST_CAVE_ROOM10" "sFiveIslandLostCaveRoom10_FireRed"
     (Some (mkMons 10 [mkMon 40 40 SPECIES_GASTLY; mkMon 37 37 SPECIES_ZUBAT; mkMon 44 44 SPECIES_HAUNTER; mkMon 46 46 SPECIES_HAUNTER; mkMon 41 41 SPECIES_GOLBAT; mkMon 43 43 SPECIES_GOLBAT; mkMon 38 38 SPECIES_GASTLY; mkMon 48 48 SPECIES_HAUNTER; mkMon 50 50 SPECIES_HAUNTER; mkMon 22 22 SPECIES_MURKROW; mkMon 52 52 SPECIES_HAUNTER; mkMon 22 22 SPECIES_MURKROW]))
     None
     None
     None;
   mkEnc "MAP_FIVE_ISLAND_LOST_CAVE_ROOM11" "sFiveIslandLostCaveRoom11_FireRed"
     (Some (mkMons 5 [mkMon 40 40 SPECIES_GASTLY; mkMon 37 37 SPECIES_ZUBAT; mkMon 44 44 SPECIES_HAUNTER; mkMon 46 46 SPECIES_HAUNTER; mkMon 41 41 SPECIES_GOLBAT; mkMon 15 15 SPECIES_MURKROW; mkMon 20 20 SPECIES_MURKROW; mkMon 48 48 SPECIES_HAUNTER; mkMon 50 50 SPECIES_HAUNTER; mkMon 22 22 SPECIES_MURKROW; mkMon 52 52 SPECIES_HAUNTER; mkMon 22 22 SPECIES_MURKROW]))
     None
     None
     None;
   mkEnc "MAP_FIVE_ISLAND_LOST_CAVE_ROOM12" "sFiveIslandLostCaveRoom12_FireRed"
     (Some (mkMons 5 [mkMon 40 40 SPECIES_GASTLY; mkMon 37 37 SPECIES_ZUBAT; mkMon 44 44 SPECIES_HAUNTER; mkMon 46 46 SPECIES_HAUNTER; mkMon 41 41 SPECIES_GOLBAT; mkMon 15 15 SPECIES_MURKROW; mkMon 20 20 SPECIES_MURKROW; mkMon 48 48 SPECIES_HAUNTER; mkMon 50 50 SPECIES_HAUNTER; mkMon 22 22 SPECIES_MURKROW; mkMon 52 52 SPECIES_HAUNTER; mkMon 22 22 SPECIES_MURKROW]))
     None
     None
     None;
   mkEnc "MAP_FIVE_ISLAND_LOST_CAVE_ROOM13" "sFiveIslandLostCaveRoom13_FireRed"
     (Some (mkMons 5 [mkMon 40 40 SPECIES_GASTLY; mkMon 37 37 SPECIES_ZUBAT; mkMon 44 44 SPECIES_HAUNTER; mkMon 46 46 SPECIES_HAUNTER; mkMon 41 41 SPECIES_GOLBAT; mkMon 15 15 SPECIES_MURKROW; mkMon 20 20 SPECIES_MURKROW; mkMon 48 48 SPECIES_HAUNTER; mkMon 50 50 SPECIES_HAUNTER; mkMon 22 22 SPECIES_MURKROW; mkMon 52 52 SPECIES_HAUNTER; mkMon 22 22 SPECIES_MURKROW]))
     None
     None
     None;
   mkEnc "MAP_FIVE_ISLAND_LOST_CAVE_ROOM14" "sFiveIslandLostCaveRoom14_FireRed"
     (Some (mkMons 5 [mkMon 40 40 SPECIES_GASTLY; mkMon 37 37 SPECIES_ZUBAT; mkMon 44 44 SPECIES_HAUNTER; mkMon 46 46 SPECIES_HAUNTER; mkMon 41 41 SPECIES_GOLBAT; mkMon 15 15 SPECIES_MURKROW; mkMon 20 20 SPECIES_MURKROW; mkMon 48 48 SPECIES_HAUNTER; mkMon 50 50 SPECIES_HAUNTER; mkMon 22 22 SPECIES_MURKROW; mkMon 52 52 SPECIES_HAUNTER; mkMon 22 22 SPECIES_MURKROW]))
     None
     None
     None;
   mkEnc "MAP_ONE_ISLAND_KINDLE_ROAD" "sOneIslandKindleRoad_FireRed"
     (Some (mkMons 21 [mkMon 32 32 SPECIES_SPEAROW; mkMon 34 34 SPECIES_PONYTA; mkMon 36 36 SPECIES_FEAROW; mkMon 31 31 SPECIES_PONYTA; mkMon 31 31 SPECIES_GEODUDE; mkMon 31 31 SPECIES_MEOWTH; mkMon 30 30 SPECIES_SPEAROW; mkMon 34 34 SPECIES_PSYDUCK; mkMon 37 37 SPECIES_RAPIDASH; mkMon 37 37 SPECIES_PERSIAN; mkMon 40 40 SPECIES_RAPIDASH; mkMon 40 40 SPECIES_PERSIAN]))
     (Some (mkMons 2 [mkMon 5 20 SPECIES_TENTACOOL; mkMon 20 35 SPECIES_TENTACOOL; mkMon 35 40 SPECIES_TENTACOOL; mkMon 35 40 SPECIES_TENTACRUEL; mkMon 35 40 SPECIES_TENTACRUEL]))
     (Some (mkMons 25 [mkMon 5 20 SPECIES_GEODUDE; mkMon 10 20 SPECIES_GEODUDE; mkMon 15 30 SPECIES_GEODUDE; mkMon 25 40 SPECIES_GRAVELER; mkMon 30 40 SPECIES_GRAVELER]))
     (Some (mkMons 20 [mkMon 5 5 SPECIES_MAGIKARP; mkMon 5 5 SPECIES_MAGIKARP; mkMon 5 15 SPECIES_HORSEA; mkMon 5 15 SPECIES_MAGIKARP; mkMon 5 15 SPECIES_HORSEA; mkMon 15 25 SPECIES_HORSEA; mkMon 15 25 SPECIES_HORSEA; mkMon 15 25 SPECIES_GYARADOS; mkMon 25 35 SPECIES_SEADRA; mkMon 25 35 SPECIES_PSYDUCK]));
   mkEnc "MAP_ONE_ISLAND_TREASURE_BEACH" "sOneIslandTreasureBeach_FireRed"
     (Some (mkMons 21 [mkMon 32 32 SPECIES_SPEAROW; mkMon 33 33 SPECIES_TANGELA; mkMon 31 31 SPECIES_SPEAROW; mkMon 35 35 SPECIES_TANGELA; mkMon 36 36 SPECIES_FEAROW; mkMon 31 31 SPECIES_MEOWTH; mkMon 38 38 SPECIES_FEAROW; mkMon 31 31 SPECIES_PSYDUCK; mkMon 40 40 SPECIES_FEAROW; mkMon 37 37 SPECIES_PERSIAN; mkMon 40 40 SPECIES_FEAROW; mkMon 40 40 SPECIES_PERSIAN]))
     (Some (mkMons 2 [mkMon 5 20 SPECIES_TENTACOOL; mkMon 20 35 SPECIES_TENTACOOL; mkMon 35 40 SPECIES_TENTACOOL; mkMon 35 40 SPECIES_TENTACRUEL; mkMon 35 40 SPECIES_TENTACRUEL]))
     None
     (Some (mkMons 20 [mkMon 5 5 SPECIES_MAGIKARP; mkMon 5 5 SPECIES_MAGIKARP; mkMon 5 15 SPECIES_HORSEA; mkMon 5 15 SPECIES_MAGIKARP; mkMon 5 15 SPECIES_HORSEA; mkMon 15 25 SPECIES_HORSEA; mkMon 15 25 SPECIES_HORSEA; mkMon 15 25 SPECIES_GYARADOS; mkMon 25 35 SPECIES_SEADRA; mkMon 25 35 SPECIES_PSYDUCK]));
   mkEnc "MAP_TWO_ISLAND_CAPE_BRINK" "sTwoIslandCapeBrink_FireRed"
     (Some (mkMons 21 [mkMon 31 31 SPECIES_SPEAROW; mkMon 30 30 SPECIES_ODDISH; mkMon 32 32 SPECIES_ODDISH; mkMon 36 36 SPECIES_GLOOM; mkMon 36 36 SPECIES_FEAROW; mkMon 31 31 SPECIES_MEOWTH; mkMon 38 38 SPECIES_GLOOM; mkMon 31 31 SPECIES_PSYDUCK; mkMon 37 37 SPECIES_GOLDUCK; mkMon 37 37 SPECIES_PERSIAN; mkMon 40 40 SPECIES_GOLDUCK; mkMon 40 40 SPECIES_PERSIAN]))
     (Some (mkMons 2 [mkMon 5 20 SPECIES_PSYDUCK; mkMon 20 35 SPECIES_PSYDUCK; mkMon 35 40 SPECIES_PSYDUCK; mkMon 35 40 SPECIES_GOLDUCK; mkMon 35 40 SPECIES_GOLDUCK]))
     None
     (Some (mkMons 20 [mkMon 5 5 SPECIES_MAGIKARP; mkMon 5 5 SPECIES_MAGIKARP; mkMon 5 15 SPECIES_POLIWAG; mkMon 5 15 SPECIES_MAGIKARP; mkMon 5 15 SPECIES_GOLDEEN; mkMon 15 25 SPECIES_POLIWAG; mkMon 20 30 SPECIES_POLIWHIRL; mkMon 15 25 SPECIES_GYARADOS; mkMon 15 25 SPECIES_PSYDUCK; mkMon 25 35 SPECIES_PSYDUCK]));
   mkEnc "MAP_THREE_ISLAND_BOND_BRIDGE" "sThreeIslandBondBridge_FireRed"
     (Some (mkMons 21 [mkMon 32 32 SPECIES_PIDGEY; mkMon 31 31 SPECIES_ODDISH; mkMon 29 29 SPECIES_PIDGEY; mkMon 36 36 SPECIES_GLOOM; mkMon 34 34 SPECIES_PIDGEOTTO; mkMon 31 31 SPECIES_MEOWTH; mkMon 34 34 SPECIES_VENONAT; mkMon 31 31 SPECIES_PSYDUCK; mkMon 37 37 SPECIES_PIDGEOTTO; mkMon 37 37 SPECIES_PERSIAN; mkMon 40 40 SPECIES_PIDGEOTTO; mkMon 40 40 SPECIES_PERSIAN]))
     (Some (mkMons 2 [mkMon 5 20 SPECIES_TENTACOOL; mkMon 20 35 SPECIES_TENTACOOL; mkMon 35 40 SPECIES_TENTACOOL; mkMon 35 40 SPECIES_TENTACRUEL; mkMon 35 40 SPECIES_TENTACRUEL]))
     None
     (Some (mkMons 20 [mkMon 5 5 SPECIES_MAGIKARP; mkMon 5 5 SPECIES_MAGIKARP; mkMon 5 15 SPECIES_HORSEA; mkMon 5 15 SPECIES_MAGIKARP; mkMon 5 15 SPECIES_HORSEA; mkMon 15 25 SPECIES_HORSEA; mkMon 15 25 SPECIES_HORSEA; mkMon 15 25 SPECIES_GYARADOS; mkMon 25 35 SPECIES_SEADRA; mkMon 25 35 SPECIES_PSYDUCK]));
   mkEnc "MAP_THREE_ISLAND_PORT" "sThreeIslandPort_FireRed"
     (Some (mkMons 1 [mkMon 15 15 SPECIES_DUNSPARCE; mkMon 15 15 SPECIES_DUNSPARCE; mkMon 10 10 SPECIES_DUNSPARCE; mkMon 10 10 SPECIES_DUNSPARCE; mkMon 20 20 SPECIES_DUNSPARCE; mkMon 20 20 SPECIES_DUNSPARCE; mkMon 25 25 SPECIES_DUNSPARCE; mkMon 30 30 SPECIES_DUNSPARCE; mkMon 25 25 SPECIES_DUNSPARCE; mkMon 30 30 SPECIES_DUNSPARCE; mkMon 5 5 SPECIES_DUNSPARCE; mkMon 35 35 SPECIES_DUNSPARCE]))
     None
     None
     None;
   mkEnc "MAP_FIVE_ISLAND_RESORT_GORGEOUS" "sFiveIslandResortGorgeous_FireRed"
     None
     (Some (mkMons 2 [mkMon 5 35 SPECIES_TENTACOOL; mkMon 5 15 SPECIES_HOPPIP; mkMon 35 40 SPECIES_TENTACOOL; mkMon 35 40 SPECIES_TENTACRUEL; mkMon 35 40 SPECIES_TENTACRUEL]))
     None
     (Some (mkMons 20 [mkMon 5 5 SPECIES_MAGIKARP; mkMon 5 5 SPECIES_MAGIKARP; mkMon 5 15 SPECIES_HORSEA; mkMon 5 15 SPECIES_MAGIKARP; mkMon 5 15 SPECIES_HORSEA; mkMon 15 25 SPECIES_HORSEA; mkMon 15 25 SPECIES_QWILFISH; mkMon 15 25 SPECIES_GYARADOS; mkMon 25 35 SPECIES_SEADRA; mkMon 25 35 SPECIES_PSYDUCK]));
   mkEnc "MAP_FIVE_ISLAND_WATER_LABYRINTH" "sFiveIslandWaterLabyrinth_FireRed"
     None
     (Some (mkMons 2 [mkMon 5 20 SPECIES_TENTACOOL; mkMon 5 15 SPECIES_HOPPIP; mkMon 35 40 SPECIES_TENTACOOL; mkMon 35 40 SPECIES_TENTACRUEL; mkMon 35 40 SPECIES_TENTACRUEL]))
     None
     (Some (mkMons 20 [mkMon 5 5 SPECIES_MAGIKARP; mkMon 5 5 SPECIES_MAGIKARP; mkMon 5 15 SPECIES_HORSEA; mkMon 5 15 SPECIES_MAGIKARP; mkMon 5 15 SPECIES_HORSEA; mkMon 15 25 SPECIES_HORSEA; mkMon 15 25 SPECIES_QWILFISH; mkMon 15 25 SPECIES_GYARADOS; mkMon 25 35 SPECIES_SEADRA; mkMon 25 35 SPECIES_PSYDUCK]));
   mkEnc "MAP_FIVE_ISLAND_MEADOW" "sFiveIslandMeadow_FireRed"
     (Some (mkMons 21 [mkMon 44 44 SPECIES_PIDGEY; mkMon 10 10 SPECIES_SENTRET; mkMon 48 48 SPECIES_PIDGEOTTO; mkMon 10 10 SPECIES_HOPPIP; mkMon 15 15 SPECIES_SENTRET; mkMon 41 41 SPECIES_MEOWTH; mkMon 15 15 SPECIES_HOPPIP; mkMon 41 41 SPECIES_PSYDUCK; mkMon 50 50 SPECIES_PIDGEOTTO; mkMon 47 47 SPECIES_PERSIAN; mkMon 50 50 SPECIES_PIDGEOTTO; mkMon 50 50 SPECIES_PERSIAN]))
     (Some (mkMons 2 [mkMon 5 35 SPECIES_TENTACOOL; mkMon 5 15 SPECIES_HOPPIP; mkMon 35 40 SPECIES_TENTACOOL; mkMon 35 40 SPECIES_TENTACRUEL; mkMon 35 40 SPECIES_TENTACRUEL]))
     None
     (Some (mkMons 20 [mkMon 5 5 SPECIES_MAGIKARP; mkMon 5 5 SPECIES_MAGIKARP; mkMon 5 15 SPECIES_HORSEA; mkMon 5 15 SPECIES_MAGIKARP; mkMon 5 15 SPECIES_HORSEA; mkMon 15 25 SPECIES_HORSEA; mkMon 15 25 SPECIES_QWILFISH; mkMon 15 25 SPECIES_GYARADOS; mkMon 25 35 SPECIES_SEADRA; mkMon 25 35 SPECIES_PSYDUCK]));
   mkEnc "MAP_FIVE_ISLAND_MEMORIAL_PILLAR" "sFiveIslandMemorialPillar_FireRed"
     (Some (mkMons 21 [mkMon 10 10 SPECIES_HOPPIP; mkMon 12 12 SPECIES_HOPPIP; mkMon 8 8 SPECIES_HOPPIP; mkMon 14 14 SPECIES_HOPPIP; mkMon 10 10 SPECIES_HOPPIP; mkMon 12 12 SPECIES_HOPPIP; mkMon 16 16 SPECIES_HOPPIP; mkMon 6 6 SPECIES_HOPPIP; mkMon 8 8 SPECIES_HOPPIP; mkMon 14 14 SPECIES_HOPPIP; mkMon 8 8 SPECIES_HOPPIP; mkMon 14 14 SPECIES_HOPPIP]))
     (Some (mkMons 2 [mkMon 5 35 SPECIES_TENTACOOL; mkMon 5 15 SPECIES_HOPPIP; mkMon 35 40 SPECIES_TENTACOOL; mkMon 35 40 SPECIES_TENTACRUEL; mkMon 35 40 SPECIES_TENTACRUEL]))
     None
     (Some (mkMons 20 [mkMon 5 5 SPECIES_MAGIKARP; mkMon 5 5 SPECIES_MAGIKARP; mkMon 5 15 SPECIES_HORSEA; mkMon 5 15 SPECIES_MAGIKARP; mkMon 5 15 SPECIES_HORSEA; mkMon 15 25 SPECIES_HORSEA; mkMon 15 25 SPECIES_QWILFISH; mkMon 15 25 SPECIES_GYARADOS; mkMon 25 35 SPECIES_SEADRA; mkMon 25 35 SPECIES_PSYDUCK]));
   mkEnc "MAP_SIX_ISLAND_OUTCAST_ISLAND" "sSixIslandOutcastIsland_FireRed"
     None
     (Some (mkMons 2 [mkMon 5 20 SPECIES_TENTACOOL; mkMon 20 35 SPECIES_TENTACOOL; mkMon 35 40 SPECIES_TENTACOOL; mkMon 35 40 SPECIES_TENTACRUEL; mkMon 35 40 SPECIES_TENTACRUEL]))
     None
     (Some (mkMons 20 [mkMon 5 5 SPECIES_MAGIKARP; mkMon 5 5 SPECIES_MAGIKARP; mkMon 5 15 SPECIES_HORSEA; mkMon 5 15 SPECIES_MAGIKARP; mkMon 5 15 SPECIES_HORSEA; mkMon 15 25 SPECIES_HORSEA; mkMon 15 25 SPECIES_QWILFISH; mkMon 15 25 SPECIES_GYARADOS; mkMon 25 35 SPECIES_SEADRA; mkMon 25 35 SPECIES_PSYDUCK]));
   mkEnc "MAP_SIX_ISLAND_GREEN_PATH" "sSixIslandGreenPath_FireRed"
     None
     (Some (mkMons 2 [mkMon 5 20 SPECIES_TENTACOOL; mkMon 20 35 SPECIES_TENTACOOL; mkMon 35 40 SPECIES_TENTACOOL; mkMon 35 40 SPECIES_TENTACRUEL; mkMon 35 40 SPECIES_TENTACRUEL]))
     None
     (Some (mkMons 20 [mkMon 5 5 SPECIES_MAGIKARP; mkMon 5 5 SPECIES_MAGIKARP; mkMon 5 15 SPECIES_HORSEA; mkMon 5 15 SPECIES_MAGIKARP; mkMon 5 15 SPECIES_HORSEA; mkMon 15 25 SPECIES_HORSEA; mkMon 15 25 SPECIES_QWILFISH; mkMon 15 25 SPECIES_GYARADOS; mkMon 25 35 SPECIES_SEADRA; mkMon 25 35 SPECIES_PSYDUCK]));
   mkEnc "MAP_SIX_ISLAND_WATER_PATH" "sSixIslandWaterPath_FireRed"
     (Some (mkMons 21 [mkMon 44 44 SPECIES_SPEAROW; mkMon 10 10 SPECIES_SENTRET; mkMon 44 44 SPECIES_ODDISH; mkMon 48 48 SPECIES_FEAROW; mkMon 15 15 SPECIES_SENTRET; mkMon 41 41 SPECIES_MEOWTH; mkMon 48 48 SPECIES_GLOOM; mkMon 41 41 SPECIES_PSYDUCK; mkMon 50 50 SPECIES_FEAROW; mkMon 47 47 SPECIES_PERSIAN; mkMon 50 50 SPECIES_FEAROW; mkMon 50 50 SPECIES_PERSIAN]))
     (Some (mkMons 2 [mkMon 5 20 SPECIES_TENTACOOL; mkMon 20 35 SPECIES_TENTACOOL; mkMon 35 40 SPECIES_TENTACOOL; mkMon 35 40 SPECIES_TENTACRUEL; mkMon 35 40 SPECIES_TENTACRUEL]))
     None
     (Some (mkMons 20 [mkMon 5 5 SPECIES_MAGIKARP; mkMon 5 5 SPECIES_MAGIKARP; mkMon 5 15 SPECIES_HORSEA; mkMon 5 15 SPECIES_MAGIKARP; mkMon 5 15 SPECIES_HORSEA; mkMon 15 25 SPECIES_HORSEA; mkMon 15 25 SPECIES_QWILFISH; mkMon 15 25 SPECIES_GYARADOS; mkMon 25 35 SPECIES_SEADRA; mkMon 25 35 SPECIES_PSYDUCK]));
   mkEnc "MAP_SIX_ISLAND_RUIN_VALLEY" "sSixIslandRuinValley_FireRed"
     (Some (mkMons 21 [mkMon 15 15 SPECIES_NATU; mkMon 44 44 SPECIES_SPEAROW; mkMon 18 18 SPECIES_YANMA; mkMon 15 15 SPECIES_WOOPER; mkMon 49 49 SPECIES_FEAROW; mkMon 43 43 SPECIES_MEOWTH; mkMon 25 25 SPECIES_WOBBUFFET; mkMon 41 41 SPECIES_PSYDUCK; mkMon 20 20 SPECIES_NATU; mkMon 49 49 SPECIES_PERSIAN; mkMon 20 20 SPECIES_NATU; mkMon 52 52 SPECIES_PERSIAN]))
     (Some (mkMons 2 [mkMon 5 20 SPECIES_WOOPER; mkMon 10 20 SPECIES_WOOPER; mkMon 15 25 SPECIES_WOOPER; mkMon 20 25 SPECIES_WOOPER; mkMon 20 25 SPECIES_WOOPER]))
     None
     (Some (mkMons 20 [mkMon 5 5 SPECIES_MAGIKARP; mkMon 5 5 SPECIES_MAGIKARP; mkMon 5 15 SPECIES_POLIWAG; mkMon 5 15 SPECIES_MAGIKARP; mkMon 5 15 SPECIES_GOLDEEN; mkMon 15 25 SPECIES_POLIWAG; mkMon 20 30 SPECIES_POLIWHIRL; mkMon 15 25 SPECIES_GYARADOS; mkMon 15 25 SPECIES_PSYDUCK; mkMon 25 35 SPECIES_PSYDUCK]));
   mkEnc "MAP_SEVEN_ISLAND_TRAINER_TOWER" "sSevenIslandTrainerTower_FireRed"
     None
     (Some (mkMons 2 [mkMon 5 20 SPECIES_TENTACOOL; mkMon 20 35 SPECIES_TENTACOOL; mkMon 35 40 SPECIES_TENTACOOL; mkMon 35 40 SPECIES_TENTACRUEL; mkMon 35 40 SPECIES_TENTACRUEL]))
     None
     (Some (mkMons 20 [mkMon 5 5 SPECIES_MAGIKARP; mkMon 5 5 SPECIES_MAGIKARP; mkMon 5 15 SPECIES_HORSEA; mkMon 5 15 SPECIES_MAGIKARP; mkMon 5 15 SPECIES_HORSEA; mkMon 15 25 SPECIES_HORSEA; mkMon 15 25 SPECIES_QWILFISH; mkMon 15 25 SPECIES_GYARADOS; mkMon 25 35 SPECIES_SEADRA; mkMon 25 35 SPECIES_PSYDUCK]));
   mkEnc "MAP_SEVEN_ISLAND_SEVAULT_CANYON_ENTRANCE" "sSevenIslandSevaultCanyonEntrance_FireRed"
     (Some (mkMons 21 [mkMon 44 44 SPECIES_SPEAROW; mkMon 10 10 SPECIES_SENTRET; mkMon 10 10 SPECIES_PHANPY; mkMon 48 48 SPECIES_FEAROW; mkMon 15 15 SPECIES_SENTRET; mkMon 41 41 SPECIES_MEOWTH; mkMon 50 50 SPECIES_FEAROW; mkMon 41 41 SPECIES_PSYDUCK; mkMon 15 15 SPECIES_PHANPY; mkMon 47 47 SPECIES_PERSIAN; mkMon 15 15 SPECIES_PHANPY; mkMon 50 50 SPECIES_PERSIAN]))
     None
     None
     None;
   mkEnc "MAP_SEVEN_ISLAND_SEVAULT_CANYON" "sSevenIslandSevaultCanyon_FireRed"
     (Some (mkMons 21 [mkMon 46 46 SPECIES_GEODUDE; mkMon 15 15 SPECIES_PHANPY; mkMon 46 46 SPECIES_CUBONE; mkMon 50 50 SPECIES_FEAROW; mkMon 52 52 SPECIES_MAROWAK; mkMon 43 43 SPECIES_MEOWTH; mkMon 54 54 SPECIES_ONIX; mkMon 30 30 SPECIES_SKARMORY; mkMon 15 15 SPECIES_LARVITAR; mkMon 49 49 SPECIES_PERSIAN; mkMon 20 20 SPECIES_LARVITAR; mkMon 52 52 SPECIES_PERSIAN]))
     None
     (Some (mkMons 25 [mkMon 25 35 SPECIES_GEODUDE; mkMon 30 45 SPECIES_GRAVELER; mkMon 35 50 SPECIES_GRAVELER; mkMon 30 40 SPECIES_GEODUDE; mkMon 30 40 SPECIES_GEODUDE]))
     None;
   mkEnc "MAP_SEVEN_ISLAND_TANOBY_RUINS" "sSevenIslandTanobyRuins_FireRed"
     None
     (Some (mkMons 2 [mkMon 5 20 SPECIES_TENTACOOL; mkMon 20 35 SPECIES_TENTACOOL; mkMon 35 40 SPECIES_TENTACOOL; mkMon 35 40 SPECIES_TENTACRUEL; mkMon 35 40 SPECIES_TENTACRUEL]))
     None
     (Some (mkMons 20 [mkMon 5 5 SPECIES_MAGIKARP; mkMon 5 5 SPECIES_MAGIKARP; mkMon 5 15 SPECIES_HORSEA; mkMon 5 15 SPECIES_MAGIKARP; mkMon 5 15 SPECIES_HORSEA; mkMon 15 25 SPECIES_HORSEA; mkMon 15 25 SPECIES_QWILFISH; mkMon 15 25 SPECIES_GYARADOS; mkMon 25 35 SPECIES_SEADRA; mkMon 25 35 SPECIES_PSYDUCK]));
   mkEnc "MAP_ROUTE1" "sRoute1_FireRed"
     (Some (mkMons 21 [mkMon 3 3 SPECIES_PIDGEY; mkMon 3 3 SPECIES_RATTATA; mkMon 3 3 SPECIES_PIDGEY; mkMon 3 3 SPECIES_RATTATA; mkMon 2 2 SPECIES_PIDGEY; mkMon 2 2 SPECIES_RATTATA; mkMon 3 3 SPECIES_PIDGEY; mkMon 3 3 SPECIES_RATTATA; mkMon 4 4 SPECIES_PIDGEY; mkMon 4 4 SPECIES_RATTATA; mkMon 5 5 SPECIES_PIDGEY; mkMon 4 4 SPECIES_RATTATA]))
     None
     None
     None;
   mkEnc "MAP_ROUTE2" "sRoute2_FireRed"
     (Some (mkMons 21 [mkMon 3 3 SPECIES_RATTATA; mkMon 3 3 SPECIES_PIDGEY; mkMon 4 4 SPECIES_RATTATA; mkMon 4 4 SPECIES_PIDGEY; mkMon 2 2 SPECIES_RATTATA; mkMon 2 2 SPECIES_PIDGEY; mkMon 5 5 SPECIES_RATTATA; mkMon 5 5 SPECIES_PIDGEY; mkMon 4 4 SPECIES_CATERPIE; mkMon 4 4 SPECIES_WEEDLE; mkMon 5 5 SPECIES_CATERPIE; mkMon 5 5 SPECIES_WEEDLE]))
     None
     None
     None;
   mkEnc "MAP_ROUTE3" "sRoute3_FireRed"
     (Some (mkMons 21 [mkMon 6 6 SPECIES_SPEAROW; mkMon 6 6 SPECIES_PIDGEY; mkMon 7 7 SPECIES_SPEAROW; mkMon 7 7 SPECIES_MANKEY; mkMon 6 6 SPECIES_NIDORAN_M; mkMon 7 7 SPECIES_PIDGEY; mkMon 8 8 SPECIES_SPEAROW; mkMon 3 3 SPECIES_JIGGLYPUFF; mkMon 7 7 SPECIES_NIDORAN_M; mkMon 5 5 SPECIES_JIGGLYPUFF; mkMon 6 6 SPECIES_NIDORAN_F; mkMon 7 7 SPECIES_JIGGLYPUFF]))
     None
     None
     None;
   mkEnc "MAP_ROUTE4" "sRoute4_FireRed"
     (Some (mkMons 21 [mkMon 10 10 SPECIES_SPEAROW; mkMon 10 10 SPECIES_RATTATA; mkMon 6 6 SPECIES_EKANS; mkMon 10 10 SPECIES_EKANS; mkMon 8 8 SPECIES_SPEAROW; mkMon 8 8 SPECIES_RATTATA; mkMon 12 12 SPECIES_SPEAROW; mkMon 12 12 SPECIES_RATTATA; mkMon 10 10 SPECIES_MANKEY; mkMon 8 8 SPECIES_EKANS; mkMon 12 12 SPECIES_MANKEY; mkMon 12 12 SPECIES_EKANS]))
     (Some (mkMons 2 [mkMon 5 10 SPECIES_TENTACOOL; mkMon 10 20 SPECIES_TENTACOOL; mkMon 20 30 SPECIES_TENTACOOL; mkMon 30 35 SPECIES_TENTACOOL; mkMon 35 40 SPECIES_TENTACOOL]))
     None
     (Some (mkMons 20 [mkMon 5 5 SPECIES_MAGIKARP; mkMon 5 5 SPECIES_MAGIKARP; mkMon 5 15 SPECIES_HORSEA; mkMon 5 15 SPECIES_MAGIKARP; mkMon 5 15 SPECIES_KRABBY; mkMon 15 25 SPECIES_HORSEA; mkMon 15 25 SPECIES_HORSEA; mkMon 15 25 SPECIES_GYARADOS; mkMon 25 35 SPECIES_HORSEA; mkMon 25 35 SPECIES_PSYDUCK]));
   mkEnc "MAP_ROUTE5" "sRoute5_FireRed"
     (Some (mkMons 21 [mkMon 10 10 SPECIES_MEOWTH; mkMon 13 13 SPECIES_PIDGEY; mkMon 13 13 SPECIES_ODDISH; mkMon 12 12 SPECIES_MEOWTH; mkMon 15 15 SPECIES_ODDISH; mkMon 15 15 SPECIES_PIDGEY; mkMon 16 16 SPECIES_ODDISH; mkMon 16 16 SPECIES_PIDGEY; mkMon 15 15 SPECIES_PIDGEY; mkMon 14 14 SPECIES_MEOWTH; mkMon 15 15 SPECIES_PIDGEY; mkMon 16 16 SPECIES_MEOWTH]))
     None
     None
     None;
   mkEnc "MAP_ROUTE6" "sRoute6_FireRed"
     (Some (mkMons 21 [mkMon 10 10 SPECIES_MEOWTH; mkMon 13 13 SPECIES_PIDGEY; mkMon 13 13 SPECIES_ODDISH; mkMon 12 12 SPECIES_MEOWTH; mkMon 15 15 SPECIES_ODDISH; mkMon 15 15 SPECIES_PIDGEY; mkMon 16 16 SPECIES_ODDISH; mkMon 16 16 SPECIES_PIDGEY; mkMon 15 15 SPECIES_PIDGEY; mkMon 14 14 SPECIES_MEOWTH; mkMon 15 15 SPECIES_PIDGEY; mkMon 16 16 SPECIES_MEOWTH]))
     (Some (mkMons 2 [mkMon 20 25 SPECIES_PSYDUCK; mkMon 20 25 SPECIES_PSYDUCK; mkMon 25 30 SPECIES_PSYDUCK; mkMon 30 35 SPECIES_PSYDUCK; mkMon 35 40 SPECIES_PSYDUCK]))
     None
     (Some (mkMons 20 [mkMon 5 5 SPECIES_MAGIKARP; mkMon 5 5 SPECIES_MAGIKARP; mkMon 5 15 SPECIES_POLIWAG; mkMon 5 15 SPECIES_MAGIKARP; mkMon 5 15 SPECIES_GOLDEEN; mkMon 15 25 SPECIES_POLIWAG; mkMon 20 30 SPECIES_POLIWHIRL; mkMon 15 25 SPECIES_GYARADOS; mkMon 15 25 SPECIES_PSYDUCK; mkMon 25 35 SPECIES_PSYDUCK]));
   mkEnc "MAP_ROUTE7" "sRoute7_FireRed"
     (Some (mkMons 21 [mkMon 19 19 SPECIES_PIDGEY; mkMon 17 17 SPECIES_MEOWTH; mkMon 19 19 SPECIES_ODDISH; mkMon 18 18 SPECIES_MEOWTH; mkMon 22 22 SPECIES_PIDGEY; mkMon 22 22 SPECIES_ODDISH; mkMon 18 18 SPECIES_GROWLITHE; mkMon 20 20 SPECIES_GROWLITHE; mkMon 17 17 SPECIES_MEOWTH; mkMon 19 19 SPECIES_MEOWTH; mkMon 17 17 SPECIES_MEOWTH; mkMon 20 20 SPECIES_MEOWTH]))
     None
     None
     None;
   mkEnc "MAP_ROUTE8" "sRoute8_FireRed"
     (Some (mkMons 21 [mkMon 18 18 SPECIES_PIDGEY; mkMon 18 18 SPECIES_MEOWTH; mkMon 16 16 SPECIES_GROWLITHE; mkMon 20 20 SPECIES_PIDGEY; mkMon 20 20 SPECIES_MEOWTH; mkMon 17 17 SPECIES_EKANS; mkMon 17 17 SPECIES_GROWLITHE; mkMon 19 19 SPECIES_EKANS; mkMon 17 17 SPECIES_EKANS; mkMon 15 15 SPECIES_GROWLITHE; mkMon 17 17 SPECIES_EKANS; mkMon 18 18 SPECIES_GROWLITHE]))
     None
     None
     None;
   mkEnc "MAP_ROUTE9" "sRoute9_FireRed"
     (Some (mkMons 21 [mkMon 16 16 SPECIES_SPEAROW; mkMon 16 16 SPECIES_RATTATA; mkMon 11 11 SPECIES_EKANS; mkMon 15 15 SPECIES_EKANS; mkMon 13 13 SPECIES_SPEAROW; mkMon 14 14 SPECIES_RATTATA; mkMon 17 17 SPECIES_SPEAROW; mkMon 17 17 SPECIES_RATTATA; mkMon 14 14 SPECIES_RATTATA; mkMon 13 13 SPECIES_EKANS; mkMon 14 14 SPECIES_RATTATA; mkMon 17 17 SPECIES_EKANS]))
     None
     None
     None;
   mkEnc "MAP_ROUTE10" "sRoute10_FireRed"
     (Some (mkMons 21 [mkMon 16 16 SPECIES_SPEAROW; mkMon 16 16 SPECIES_VOLTORB; mkMon 11 11 SPECIES_EKANS; mkMon 15 15 SPECIES_EKANS; mkMon 13 13 SPECIES_SPEAROW; mkMon 14 14 SPECIES_VOLTORB; mkMon 17 17 SPECIES_SPEAROW; mkMon 17 17 SPECIES_VOLTORB; mkMon 14 14 SPECIES_VOLTORB; mkMon 13 13 SPECIES_EKANS; mkMon 14 14 SPECIES_VOLTORB; mkMon 17 17 SPECIES_EKANS]))
     (Some (mkMons 2 [mkMon 5 10 SPECIES_TENTACOOL; mkMon 10 20 SPECIES_TENTACOOL; mkMon 20 30 SPECIES_TENTACOOL; mkMon 30 35 SPECIES_TENTACOOL; mkMon 35 40 SPECIES_TENTACOOL]))
     None
     (Some (mkMons 20 [mkMon 5 5 SPECIES_MAGIKARP; mkMon 5 5 SPECIES_MAGIKARP; mkMon 5 15 SPECIES_HORSEA; mkMon 5 15 SPECIES_MAGIKARP; mkMon 5 15 SPECIES_KRABBY; mkMon 15 25 SPECIES_HORSEA; mkMon 15 25 SPECIES_HORSEA; mkMon 15 25 SPECIES_GYARADOS; mkMon 25 35 SPECIES_HORSEA; mkMon 25 35 SPECIES_PSYDUCK]));
   mkEnc "MAP_ROUTE11" "sRoute11_FireRed"
     (Some (mkMons 21 [mkMon 14 14 SPECIES_EKANS; mkMon 15 15 SPECIES_SPEAROW; mkMon 12 12 SPECIES_EKANS; mkMon 13 13 SPECIES_SPEAROW; mkMon 11 11 SPECIES_DROWZEE; mkMon 13 13 SPECIES_DROWZEE; mkMon 15 15 SPECIES_EKANS; mkMon 17 17 SPECIES_SPEAROW; mkMon 12 12 SPECIES_EKANS; mkMon 15 15 SPECIES_DROWZEE; mkMon 12 12 SPECIES_EKANS; mkMon 15 15 SPECIES_DROWZEE]))
     (Some (mkMons 2 [mkMon 5 10 SPECIES_TENTACOOL; mkMon 10 20 SPECIES_TENTACOOL; mkMon 20 30 SPECIES_TENTACOOL; mkMon 30 35 SPECIES_TENTACOOL; mkMon 35 40 SPECIES_TENTACOOL]))
     None
     (Some (mkMons 20 [mkMon 5 5 SPECIES_MAGIKARP; mkMon 5 5 SPECIES_MAGIKARP; mkMon 5 15 SPECIES_HORSEA; mkMon 5 15 SPECIES_MAGIKARP; mkMon 5 15 SPECIES_KRABBY; mkMon 15 25 SPECIES_HORSEA; mkMon 15 25 SPECIES_HORSEA; mkMon 15 25 SPECIES_GYARADOS; mkMon 25 35 SPECIES_HORSEA; mkMon 25 35 SPECIES_PSYDUCK]));
   mkEnc "MAP_ROUTE12" "sRoute12_FireRed"
     (Some (mkMons 21 [mkMon 24 24 SPECIES_ODDISH; mkMon 24 24 SPECIES_VENONAT; mkMon 22 22 SPECIES_ODDISH; mkMon 23 23 SPECIES_PIDGEY; mkMon 25 25 SPECIES_PIDGEY; mkMon 26 26 SPECIES_VENONAT; mkMon 26 26 SPECIES_ODDISH; mkMon 27 27 SPECIES_PIDGEY; mkMon 23 23 SPECIES_PIDGEY; mkMon 28 28 SPECIES_GLOOM; mkMon 23 23 SPECIES_PIDGEY; mkMon 30 30 SPECIES_GLOOM]))
     (Some (mkMons 2 [mkMon 5 10 SPECIES_TENTACOOL; mkMon 10 20 SPECIES_TENTACOOL; mkMon 20 30 SPECIES_TENTACOOL; mkMon 30 35 SPECIES_TENTACOOL; mkMon 35 40 SPECIES_TENTACOOL]))
     None
     (Some (mkMons 60 [mkMon 5 5 SPECIES_MAGIKARP; mkMon 5 5 SPECIES_MAGIKARP; mkMon 5 15 SPECIES_HORSEA; mkMon 5 15 SPECIES_MAGIKARP; mkMon 5 15 SPECIES_KRABBY; mkMon 15 25 SPECIES_HORSEA; mkMon 15 25 SPECIES_HORSEA; mkMon 15 25 SPECIES_GYARADOS; mkMon 25 35 SPECIES_HORSEA; mkMon 25 35 SPECIES_PSYDUCK]));
   mkEnc "MAP_ROUTE13" "sRoute13_FireRed"
     (Some (mkMons 21 [mkMon 24 24 SPECIES_ODDISH; mkMon 24 24 SPECIES_VENONAT; mkMon 22 22 SPECIES_ODDISH; mkMon 27 27 SPECIES_PIDGEY; mkMon 25 25 SPECIES_PIDGEY; mkMon 26 26 SPECIES_VENONAT; mkMon 26 26 SPECIES_ODDISH; mkMon 25 25 SPECIES_DITTO; mkMon 29 29 SPECIES_PIDGEOTTO; mkMon 28 28 SPECIES_GLOOM; mkMon 29 29 SPECIES_PIDGEOTTO; mkMon 30 30 SPECIES_GLOOM]))
     (Some (mkMons 2 [mkMon 5 10 SPECIES_TENTACOOL; mkMon 10 20 SPECIES_TENTACOOL; mkMon 20 30 SPECIES_TENTACOOL; mkMon 30 35 SPECIES_TENTACOOL; mkMon 35 40 SPECIES_TENTACOOL]))
     None
     (Some (mkMons 20 [mkMon 5 5 SPECIES_MAGIKARP; mkMon 5 5 SPECIES_MAGIKARP; mkMon 5 15 SPECIES_HORSEA; mkMon 5 15 SPECIES_MAGIKARP; mkMon 5 15 SPECIES_KRABBY; mkMon 15 25 SPECIES_HORSEA; mkMon 15 25 SPECIES_HORSEA; mkMon 15 25 SPECIES_GYARADOS; mkMon 25 35 SPECIES_HORSEA; mkMon 25 35 SPECIES_PSYDUCK]));
   mkEnc "MAP_ROUTE14" "sRoute14_FireRed"
     (Some (mkMons 21 [mkMon 24 24 SPECIES_ODDISH; mkMon 24 24 SPECIES_VENONAT; mkMon 22 22 SPECIES_ODDISH; mkMon 23 23 SPECIES_DITTO; mkMon 27 27 SPECIES_PIDGEY; mkMon 26 26 SPECIES_VENONAT; mkMon 26 26 SPECIES_ODDISH; mkMon 30 30 SPECIES_GLOOM; mkMon 23 23 SPECIES_DITTO; mkMon 29 29 SPECIES_PIDGEOTTO; mkMon 23 23 SPECIES_DITTO; mkMon 29 29 SPECIES_PIDGEOTTO]))
     None
     None
     None;
   mkEnc "MAP_ROUTE15" "sRoute15_FireRed"
     (Some (mkMons 21 [mkMon 24 24 SPECIES_ODDISH; mkMon 24 24 SPECIES_VENONAT; mkMon 22 22 SPECIES_ODDISH; mkMon 27 27 SPECIES_PIDGEY; mkMon 25 25 SPECIES_PIDGEY; mkMon 26 26 SPECIES_VENONAT; mkMon 26 26 SPECIES_ODDISH; mkMon 25 25 SPECIES_DITTO; mkMon 29 29 SPECIES_PIDGEOTTO; mkMon 28 28 SPECIES_GLOOM; mkMon 29 29 SPECIES_PIDGEOTTO; mkMon 30 30 SPECIES_GLOOM]))
     None
     None
     None;
   mkEnc "MAP_ROUTE16" "sRoute16_FireRed"
     (Some (mkMons 21 [mkMon 20 20 SPECIES_SPEAROW; mkMon 18 18 SPECIES_DODUO; mkMon 18 18 SPECIES_RATTATA; mkMon 20 20 SPECIES_RATTATA; mkMon 22 22 SPECIES_SPEAROW; mkMon 20 20 SPECIES_DODUO; mkMon 22 22 SPECIES_RATTATA; mkMon 22 22 SPECIES_DODUO; mkMon 18 18 SPECIES_RATTATA; mkMon 23 23 SPECIES_RATICATE; mkMon 18 18 SPECIES_RATTATA; mkMon 25 25 SPECIES_RATICATE]))
     None
     None
     None;
   mkEnc "MAP_ROUTE17" "sRoute17_FireRed"
     (Some (mkMons 21 [mkMon 20 20 SPECIES_SPEAROW; mkMon 24 24 SPECIES_DODUO; mkMon 22 22 SPECIES_SPEAROW; mkMon 26 26 SPECIES_DODUO; mkMon 25 25 SPECIES_RATICATE; mkMon 27 27 SPECIES_RATICATE; mkMon 28 28 SPECIES_DODUO; mkMon 29 29 SPECIES_RATICATE; mkMon 22 22 SPECIES_RATTATA; mkMon 25 25 SPECIES_FEAROW; mkMon 22 22 SPECIES_RATTATA; mkMon 27 27 SPECIES_FEAROW]))
     None
     None
     None;
   mkEnc "MAP_ROUTE18" "sRoute18_FireRed"
     (Some (mkMons 21 [mkMon 20 20 SPECIES_SPEAROW; mkMon 24 24 SPECIES_DODUO; mkMon 22 22 SPECIES_SPEAROW; mkMon 26 26 SPECIES_DODUO; mkMon 25 25 SPECIES_RATICATE; mkMon 25 25 SPECIES_FEAROW; mkMon 28 28 SPECIES_DODUO; mkMon 29 29 SPECIES_RATICATE; mkMon 22 22 SPECIES_RATTATA; mkMon 27 27 SPECIES_FEAROW; mkMon 22 22 SPECIES_RATTATA; mkMon 29 29 SPECIES_FEAROW]))
     None
     None
     None;
   mkEnc "MAP_ROUTE19" "sRoute19_FireRed"
     None
     (Some (mkMons 2 [mkMon 5 10 SPECIES_TENTACOOL; mkMon 10 20 SPECIES_TENTACOOL; mkMon 20 30 SPECIES_TENTACOOL; mkMon 30 35 SPECIES_TENTACOOL; mkMon 35 40 SPECIES_TENTACOOL]))
     None
     (Some (mkMons 20 [mkMon 5 5 SPECIES_MAGIKARP; mkMon 5 5 SPECIES_MAGIKARP; mkMon 5 15 SPECIES_HORSEA; mkMon 5 15 SPECIES_MAGIKARP; mkMon 5 15 SPECIES_KRABBY; mkMon 15 25 SPECIES_HORSEA; mkMon 15 25 SPECIES_HORSEA; mkMon 15 25 SPECIES_GYARADOS; mkMon 25 35 SPECIES_SEADRA; mkMon 25 35 SPECIES_PSYDUCK]));
   mkEnc "MAP_ROUTE20" "sRoute20_FireRed"
     None
     (Some (mkMons 2 [mkMon 5 10 SPECIES_TENTACOOL; mkMon 10 20 SPECIES_TENTACOOL; mkMon 20 30 SPECIES_TENTACOOL; mkMon 30 35 SPECIES_TENTACOOL; mkMon 35 40 SPECIES_TENTACOOL]))
     None
     (Some (mkMons 20 [mkMon 5 5 SPECIES_MAGIKARP; mkMon 5 5 SPECIES_MAGIKARP; mkMon 5 15 SPECIES_HORSEA; mkMon 5 15 SPECIES_MAGIKARP; mkMon 5 15 SPECIES_KRABBY; mkMon 15 25 SPECIES_HORSEA; mkMon 15 25 SPECIES_HORSEA; mkMon 15 25 SPECIES_GYARADOS; mkMon 25 35 SPECIES_SEADRA; mkMon 25 35 SPECIES_PSYDUCK]));
   mkEnc "MAP_ROUTE21_NORTH" "sRoute21North_FireRed"
     (Some (mkMons 14 [mkMon 22 22 SPECIES_TANGELA; mkMon 23 23 SPECIES_TANGELA; mkMon 24 24 SPECIES_TANGELA; mkMon 21 21 SPECIES_TANGELA; mkMon 25 25 SPECIES_TANGELA; mkMon 20 20 SPECIES_TANGELA; mkMon 19 19 SPECIES_TANGELA; mkMon 26 26 SPECIES_TANGELA; mkMon 18 18 SPECIES_TANGELA; mkMon 27 27 SPECIES_TANGELA; mkMon 17 17 SPECIES_TANGELA; mkMon 28 28 SPECIES_TANGELA]))
     (Some (mkMons 2 [mkMon 5 10 SPECIES_TENTACOOL; mkMon 10 20 SPECIES_TENTACOOL; mkMon 20 30 SPECIES_TENTACOOL; mkMon 30 35 SPECIES_TENTACOOL; mkMon 35 40 SPECIES_TENTACOOL]))
     None
     (Some (mkMons 20 [mkMon 5 5 SPECIES_MAGIKARP; mkMon 5 5 SPECIES_MAGIKARP; mkMon 5 15 SPECIES_HORSEA; mkMon 5 15 SPECIES_MAGIKARP; mkMon 5 15 SPECIES_KRABBY; mkMon 15 25 SPECIES_HORSEA; mkMon 15 25 SPECIES_HORSEA; mkMon 15 25 SPECIES_GYARADOS; mkMon 25 35 SPECIES_SEADRA; mkMon 25 35 SPECIES_PSYDUCK]));
   mkEnc "MAP_ROUTE21_SOUTH" "sRoute21South_FireRed"
     (Some (mkMons 14 [mkMon 22 22 SPECIES_TANGELA; mkMon 23 23 SPECIES_TANGELA; mkMon 24 24 SPECIES_TANGELA; mkMon 21 21 SPECIES_TANGELA; mkMon 25 25 SPECIES_TANGELA; mkMon 20 20 SPECIES_TANGELA; mkMon 19 19 SPECIES_TANGELA; mkMon 26 26 SPECIES_TANGELA; mkMon 18 18 SPECIES_TANGELA; mkMon 27 27 SPECIES_TANGELA; mkMon 17 17 SPECIES_TANGELA; mkMon 28 28 SPECIES_TANGELA]))
     (Some (mkMons 2 [mkMon 5 10 SPECIES_TENTACOOL; mkMon 10 20 SPECIES_TENTACOOL; mkMon 20 30 SPECIES_TENTACOOL; mkMon 30 35 SPECIES_TENTACOOL; mkMon 35 40 SPECIES_TENTACOOL]))
     None
     (Some (mkMons 20 [mkMon 5 5 SPECIES_MAGIKARP; mkMon 5 5 SPECIES_MAGIKARP; mkMon 5 15 SPECIES_HORSEA; mkMon 5 15 SPECIES_MAGIKARP; mkMon 5 15 SPECIES_KRABBY; mkMon 15 25 SPECIES_HORSEA; mkMon 15 25 SPECIES_HORSEA; mkMon 15 25 SPECIES_GYARADOS; mkMon 25 35 SPECIES_SEADRA; mkMon 25 35 SPECIES_PSYDUCK]));
   mkEnc "MAP_ROUTE22" "sRoute22_FireRed"
     (Some (mkMons 21 [mkMon 3 3 SPECIES_RATTATA; mkMon 3 3 SPECIES_MANKEY; mkMon 4 4 SPECIES_RATTATA; mkMon 4 4 SPECIES_MANKEY; mkMon 2 2 SPECIES_RATTATA; mkMon 2 2 SPECIES_MANKEY; mkMon 3 3 SPECIES_SPEAROW; mkMon 5 5 SPECIES_SPEAROW; mkMon 5 5 SPECIES_RATTATA; mkMon 5 5 SPECIES_MANKEY; mkMon 5 5 SPECIES_RATTATA; mkMon 5 5 SPECIES_MANKEY]))
     (Some (mkMons 2 [mkMon 20 25 SPECIES_PSYDUCK; mkMon 20 25 SPECIES_PSYDUCK; mkMon 25 30 SPECIES_PSYDUCK; mkMon 30 35 SPECIES_PSYDUCK; mkMon 35 40 SPECIES_PSYDUCK]))
     None
     (Some (mkMons 20 [mkMon 5 5 SPECIES_MAGIKARP; mkMon 5 5 SPECIES_MAGIKARP; mkMon 5 15 SPECIES_POLIWAG; mkMon 5 15 SPECIES_MAGIKARP; mkMon 5 15 SPECIES_GOLDEEN; mkMon 15 25 SPECIES_POLIWAG; mkMon 20 30 SPECIES_POLIWHIRL; mkMon 15 25 SPECIES_GYARADOS; mkMon 15 25 SPECIES_PSYDUCK; mkMon 25 35 SPECIES_PSYDUCK]));
   mkEnc "MAP_ROUTE23" "sRoute23_FireRed"
     (Some (mkMons 21 [mkMon 32 32 SPECIES_MANKEY; mkMon 40 40 SPECIES_FEAROW; mkMon 34 34 SPECIES_MANKEY; mkMon 34 34 SPECIES_SPEAROW; mkMon 32 32 SPECIES_EKANS; mkMon 34 34 SPECIES_EKANS; mkMon 42 42 SPECIES_PRIMEAPE; mkMon 44 44 SPECIES_ARBOK; mkMon 32 32 SPECIES_SPEAROW; mkMon 42 42 SPECIES_FEAROW; mkMon 32 32 SPECIES_SPEAROW; mkMon 44 44 SPECIES_FEAROW]))
     (Some (mkMons 2 [mkMon 20 25 SPECIES_PSYDUCK; mkMon 20 25 SPECIES_PSYDUCK; mkMon 25 30 SPECIES_PSYDUCK; mkMon 30 35 SPECIES_PSYDUCK; mkMon 35 40 SPECIES_PSYDUCK]))
     None
     (Some (mkMons 20 [mkMon 5 5 SPECIES_MAGIKARP; mkMon 5 5 SPECIES_MAGIKARP; mkMon 5 15 SPECIES_POLIWAG; mkMon 5 15 SPECIES_MAGIKARP; mkMon 5 15 SPECIES_GOLDEEN; mkMon 15 25 SPECIES_POLIWAG; mkMon 20 30 SPECIES_POLIWHIRL; mkMon 15 25 SPECIES_GYARADOS; mkMon 15 25 SPECIES_PSYDUCK; mkMon 25 35 SPECIES_PSYDUCK]));
   mkEnc "MAP_ROUTE24" "sRoute24_FireRed"
     (Some (mkMons 21 [mkMon 7 7 SPECIES_WEEDLE; mkMon 7 7 SPECIES_CATERPIE; mkMon 11 11 SPECIES_PIDGEY; mkMon 12 12 SPECIES_ODDISH; mkMon 13 13 SPECIES_ODDISH; mkMon 10 10 SPECIES_ABRA; mkMon 13 13 SPECIES_PIDGEY; mkMon 14 14 SPECIES_ODDISH; mkMon 8 8 SPECIES_KAKUNA; mkMon 8 8 SPECIES_ABRA; mkMon 8 8 SPECIES_METAPOD; mkMon 12 12 SPECIES_ABRA]))
     (Some (mkMons 2 [mkMon 5 10 SPECIES_TENTACOOL; mkMon 10 20 SPECIES_TENTACOOL; mkMon 20 30 SPECIES_TENTACOOL; mkMon 30 35 SPECIES_TENTACOOL; mkMon 35 40 SPECIES_TENTACOOL]))
     None
     (Some (mkMons 20 [mkMon 5 5 SPECIES_MAGIKARP; mkMon 5 5 SPECIES_MAGIKARP; mkMon 5 15 SPECIES_HORSEA; mkMon 5 15 SPECIES_MAGIKARP; mkMon 5 15 SPECIES_KRABBY; mkMon 15 25 SPECIES_HORSEA; mkMon 15 25 SPECIES_HORSEA; mkMon 15 25 SPECIES_GYARADOS; mkMon 25 35 SPECIES_HORSEA; mkMon 25 35 SPECIES_PSYDUCK]));
   mkEnc "MAP_ROUTE25" "sRoute25_FireRed"
     (Some (mkMons 21 [mkMon 8 8 SPECIES_WEEDLE; mkMon 8 8 SPECIES_CATERPIE; mkMon 13 13 SPECIES_PIDGEY; mkMon 14 14 SPECIES_ODDISH; mkMon 13 13 SPECIES_ODDISH; mkMon 11 11 SPECIES_ABRA; mkMon 11 11 SPECIES_PIDGEY; mkMon 12 12 SPECIES_ODDISH; mkMon 9 9 SPECIES_KAKUNA; mkMon 9 9 SPECIES_ABRA; mkMon 9 9 SPECIES_METAPOD; mkMon 13 13 SPECIES_ABRA]))
     (Some (mkMons 2 [mkMon 20 25 SPECIES_PSYDUCK; mkMon 20 25 SPECIES_PSYDUCK; mkMon 25 30 SPECIES_PSYDUCK; mkMon 30 35 SPECIES_PSYDUCK; mkMon 35 40 SPECIES_PSYDUCK]))
     None
     (Some (mkMons 20 [mkMon 5 5 SPECIES_MAGIKARP; mkMon 5 5 SPECIES_MAGIKARP; mkMon 5 15 SPECIES_POLIWAG; mkMon 5 15 SPECIES_MAGIKARP; mkMon 5 15 SPECIES_GOLDEEN; mkMon 15 25 SPECIES_POLIWAG; mkMon 20 30 SPECIES_POLIWHIRL; mkMon 15 25 SPECIES_GYARADOS; mkMon 15 25 SPECIES_PSYDUCK; mkMon 25 35 SPECIES_PSYDUCK]));
   mkEnc "MAP_PALLET_TOWN" "sPalletTown_FireRed"
     None
     (Some (mkMons 1 [mkMon 5 10 SPECIES_TENTACOOL; mkMon 10 20 SPECIES_TENTACOOL; mkMon 20 30 SPECIES_TENTACOOL; mkMon 30 35 SPECIES_TENTACOOL; mkMon 35 40 SPECIES_TENTACOOL]))
     None
     (Some (mkMons 10 [mkMon 5 10 SPECIES_MAGIKARP; mkMon 5 10 SPECIES_MAGIKARP; mkMon 5 15 SPECIES_HORSEA; mkMon 5 15 SPECIES_MAGIKARP; mkMon 5 15 SPECIES_KRABBY; mkMon 15 25 SPECIES_HORSEA; mkMon 15 25 SPECIES_SHELLDER; mkMon 15 25 SPECIES_GYARADOS; mkMon 25 35 SPECIES_SEADRA; mkMon 25 35 SPECIES_PSYDUCK]));
   mkEnc "MAP_VIRIDIAN_CITY" "sViridianCity_FireRed"
     None
     (Some (mkMons 1 [mkMon 20 25 SPECIES_PSYDUCK; mkMon 20 25 SPECIES_PSYDUCK; mkMon 25 30 SPECIES_PSYDUCK; mkMon 30 35 SPECIES_PSYDUCK; mkMon 35 40 SPECIES_PSYDUCK]))
     None
     (Some (mkMons 10 [mkMon 5 5 SPECIES_MAGIKARP; mkMon 5 5 SPECIES_MAGIKARP; mkMon 5 15 SPECIES_POLIWAG; mkMon 5 15 SPECIES_MAGIKARP; mkMon 5 15 SPECIES_GOLDEEN; mkMon 15 25 SPECIES_POLIWAG; mkMon 20 30 SPECIES_POLIWHIRL; mkMon 15 25 SPECIES_GYARADOS; mkMon 15 25 SPECIES_PSYDUCK; mkMon 25 35 SPECIES_PSYDUCK]));
   mkEnc "MAP_CERULEAN_CITY" "sCeruleanCity_FireRed"
     None
     (Some (mkMons 1 [mkMon 5 10 SPECIES_TENTACOOL; mkMon 10 20 SPECIES_TENTACOOL; mkMon 20 30 SPECIES_TENTACOOL; mkMon 30 35 SPECIES_TENTACOOL; mkMon 35 40 SPECIES_TENTACOOL]))
     None
     (Some (mkMons 10 [mkMon 5 5 SPECIES_MAGIKARP; mkMon 5 5 SPECIES_MAGIKARP; mkMon 5 15 SPECIES_HORSEA; mkMon 5 15 SPECIES_MAGIKARP; mkMon 5 15 SPECIES_KRABBY; mkMon 15 25 SPECIES_HORSEA; mkMon 15 25 SPECIES_HORSEA; mkMon 15 25 SPECIES_GYARADOS; mkMon 25 35 SPECIES_HORSEA; mkMon 25 35 SPECIES_PSYDUCK]));
   mkEnc "MAP_VERMILION_CITY" "sVermilionCity_FireRed"
     None
     (Some (mkMons 1 [mkMon 5 10 SPECIES_TENTACOOL; mkMon 10 20 SPECIES_TENTACOOL; mkMon 20 30 SPECIES_TENTACOOL; mkMon 30 35 SPECIES_TENTACOOL; mkMon 35 40 SPECIES_TENTACOOL]))
     None
     (Some (mkMons 10 [mkMon 5 5 SPECIES_MAGIKARP; mkMon 5 5 SPECIES_MAGIKARP; mkMon 5 15 SPECIES_HORSEA; mkMon 5 15 SPECIES_MAGIKARP; mkMon 5 15 SPECIES_KRABBY; mkMon 15 25 SPECIES_HORSEA; mkMon 15 25 SPECIES_SHELLDER; mkMon 15 25 SPECIES_GYARADOS; mkMon 25 35 SPECIES_HORSEA; mkMon 25 35 SPECIES_PSYDUCK]));
   mkEnc "MAP_CELADON_CITY" "sCeladonCity_FireRed"
     None
     (Some (mkMons 1 [mkMon 5 10 SPECIES_PSYDUCK; mkMon 10 20 SPECIES_PSYDUCK; mkMon 20 30 SPECIES_PSYDUCK; mkMon 30 40 SPECIES_PSYDUCK; mkMon 30 40 SPECIES_KOFFING]))
     None
     (Some (mkMons 10 [mkMon 5 5 SPECIES_MAGIKARP; mkMon 5 5 SPECIES_MAGIKARP; mkMon 5 15 SPECIES_MAGIKARP; mkMon 5 15 SPECIES_MAGIKARP; mkMon 5 15 SPECIES_MAGIKARP; mkMon 15 25 SPECIES_MAGIKARP; mkMon 15 25 SPECIES_MAGIKARP; mkMon 15 25 SPECIES_MAGIKARP; mkMon 25 35 SPECIES_MAGIKARP; mkMon 30 40 SPECIES_GRIMER]));
   mkEnc "MAP_FUCHSIA_CITY" "sFuchsiaCity_FireRed"
     None
     (Some (mkMons 1 [mkMon 20 25 SPECIES_PSYDUCK; mkMon 20 25 SPECIES_PSYDUCK; mkMon 25 30 SPECIES_PSYDUCK; mkMon 30 35 SPECIES_PSYDUCK; mkMon 35 40 SPECIES_PSYDUCK]))
     None
     (Some (mkMons 10 [mkMon 5 5 SPECIES_MAGIKARP; mkMon 5 5 SPECIES_MAGIKARP; mkMon 5 15 SPECIES_GOLDEEN; mkMon 5 15 SPECIES_MAGIKARP; mkMon 5 15 SPECIES_POLIWAG; mkMon 15 25 SPECIES_GOLDEEN; mkMon 20 30 SPECIES_SEAKING; mkMon 15 25 SPECIES_GYARADOS; mkMon 15 25 SPECIES_PSYDUCK; mkMon 25 35 SPECIES_PSYDUCK]));
   mkEnc "MAP_CINNABAR_ISLAND" "sCinnabarIsland_FireRed"
     None
     (Some (mkMons 1 [mkMon 5 10 SPECIES_TENTACOOL; mkMon 10 20 SPECIES_TENTACOOL; mkMon 20 30 SPECIES_TENTACOOL; mkMon 30 35 SPECIES_TENTACOOL; mkMon 35 40 SPECIES_TENTACOOL]))
     None
     (Some (mkMons 10 [mkMon 5 5 SPECIES_MAGIKARP; mkMon 5 5 SPECIES_MAGIKARP; mkMon 5 15 SPECIES_HORSEA; mkMon 5 15 SPECIES_MAGIKARP; mkMon 5 15 SPECIES_KRABBY; mkMon 15 25 SPECIES_HORSEA; mkMon 15 25 SPECIES_SHELLDER; mkMon 15 25 SPECIES_GYARADOS; mkMon 25 35 SPECIES_SEADRA; mkMon 25 35 SPECIES_PSYDUCK]));
   mkEnc "MAP_ONE_ISLAND" "sOneIsland_FireRed"
     None
     (Some (mkMons 1 [mkMon 5 20 SPECIES_TENTACOOL; mkMon 20 35 SPECIES_TENTACOOL; mkMon 35 40 SPECIES_TENTACOOL; mkMon 35 40 SPECIES_TENTACRUEL; mkMon 35 40 SPECIES_TENTACRUEL]))
     None
     (Some (mkMons 10 [mkMon 5 5 SPECIES_MAGIKARP; mkMon 5 5 SPECIES_MAGIKARP; mkMon 5 15 SPECIES_HORSEA; mkMon 5 15 SPECIES_MAGIKARP; mkMon 5 15 SPECIES_HORSEA; mkMon 15 25 SPECIES_HORSEA; mkMon 15 25 SPECIES_SHELLDER; mkMon 15 25 SPECIES_GYARADOS; mkMon 25 35 SPECIES_SEADRA; mkMon 25 35 SPECIES_PSYDUCK]));
   mkEnc "MAP_FOUR_ISLAND" "sFourIsland_FireRed"
     None
     (Some (mkMons 2 [mkMon 5 15 SPECIES_WOOPER; mkMon 5 35 SPECIES_PSYDUCK; mkMon 15 25 SPECIES_WOOPER; mkMon 15 25 SPECIES_WOOPER; mkMon 15 25 SPECIES_WOOPER]))
     None
     (Some (mkMons 20 [mkMon 5 5 SPECIES_MAGIKARP; mkMon 5 5 SPECIES_MAGIKARP; mkMon 5 15 SPECIES_POLIWAG; mkMon 5 15 SPECIES_MAGIKARP; mkMon 5 15 SPECIES_GOLDEEN; mkMon 15 25 SPECIES_POLIWAG; mkMon 20 30 SPECIES_POLIWHIRL; mkMon 15 25 SPECIES_GYARADOS; mkMon 15 25 SPECIES_PSYDUCK; mkMon 25 35 SPECIES_PSYDUCK]));
   mkEnc "MAP_FIVE_ISLAND" "sFiveIsland_FireRed"
     None
     (Some (mkMons 1 [mkMon 5 35 SPECIES_TENTACOOL; mkMon 5 15 SPECIES_HOPPIP; mkMon 35 40 SPECIES_TENTACOOL; mkMon 35 40 SPECIES_TENTACRUEL; mkMon 35 40 SPECIES_TENTACRUEL]))
     None
     (Some (mkMons 10 [mkMon 5 5 SPECIES_MAGIKARP; mkMon 5 5 SPECIES_MAGIKARP; mkMon 5 15 SPECIES_HORSEA; mkMon 5 15 SPECIES_MAGIKARP; mkMon 5 15 SPECIES_HORSEA; mkMon 15 25 SPECIES_HORSEA; mkMon 15 25 SPECIES_SHELLDER; mkMon 15 25 SPECIES_GYARADOS; mkMon 25 35 SPECIES_SEADRA; mkMon 25 35 SPECIES_PSYDUCK]));
   mkEnc "MAP_SIX_ISLAND_ALTERING_CAVE" "sSixIslandAlteringCave_FireRed"
     (Some (mkMons 5 [mkMon 10 10 SPECIES_ZUBAT; mkMon 12 12 SPECIES_ZUBAT; mkMon 8 8 SPECIES_ZUBAT; mkMon 14 14 SPECIES_ZUBAT; mkMon 10 10 SPECIES_ZUBAT; mkMon 12 12 SPECIES_ZUBAT; mkMon 16 16 SPECIES_ZUBAT; mkMon 6 6 SPECIES_ZUBAT; mkMon 8 8 SPECIES_ZUBAT; mkMon 14 14 SPECIES_ZUBAT; mkMon 8 8 SPECIES_ZUBAT; mkMon 14 14 SPECIES_ZUBAT]))
     None
     None
     None;
   mkEnc "MAP_SIX_ISLAND_ALTERING_CAVE" "sSixIslandAlteringCave_2_FireRed"
     (Some (mkMons 5 [mkMon 7 7 SPECIES_MAREEP; mkMon 9 9 SPECIES_MAREEP; mkMon 5 5 SPECIES_MAREEP; mkMon 11 11 SPECIES_MAREEP; mkMon 7 7 SPECIES_MAREEP; mkMon 9 9 SPECIES_MAREEP; mkMon 13 13 SPECIES_MAREEP; mkMon 3 3 SPECIES_MAREEP; mkMon 5 5 SPECIES_MAREEP; mkMon 11 11 SPECIES_MAREEP; mkMon 5 5 SPECIES_MAREEP; mkMon 11 11 SPECIES_MAREEP]))
     None
     None
     None;
   mkEnc "MAP_SIX_ISLAND_ALTERING_CAVE" "sSixIslandAlteringCave_3_FireRed"
     (Some (mkMons 5 [mkMon 23 23 SPECIES_PINECO; mkMon 25 25 SPECIES_PINECO; mkMon 22 22 SPECIES_PINECO; mkMon 27 27 SPECIES_PINECO; mkMon 23 23 SPECIES_PINECO; mkMon 25 25 SPECIES_PINECO; mkMon 29 29 SPECIES_PINECO; mkMon 19 19 SPECIES_PINECO; mkMon 21 21 SPECIES_PINECO; mkMon 27 27 SPECIES_PINECO; mkMon 21 21 SPECIES_PINECO; mkMon 27 27 SPECIES_PINECO]))
     None
     None
     None;
   mkEnc "MAP_SIX_ISLAND_ALTERING_CAVE" "sSixIslandAlteringCave_4_FireRed"
     (Some (mkMons 5 [mkMon 16 16 SPECIES_HOUNDOUR; mkMon 18 18 SPECIES_HOUNDOUR; mkMon 14 14 SPECIES_HOUNDOUR; mkMon 20 20 SPECIES_HOUNDOUR; mkMon 16 16 SPECIES_HOUNDOUR; mkMon 18 18 SPECIES_HOUNDOUR; mkMon 22 22 SPECIES_HOUNDOUR; mkMon 12 12 SPECIES_HOUNDOUR; mkMon 14 14 SPECIES_HOUNDOUR; mkMon 20 20 SPECIES_HOUNDOUR; mkMon 14 14 SPECIES_HOUNDOUR; mkMon 20 20 SPECIES_HOUNDOUR]))
     None
     None
     None;
   mkEnc "MAP_SIX_ISLAND_ALTERING_CAVE" "sSixIslandAlteringCave_5_FireRed"
     (Some (mkMons 5 [mkMon 22 22 SPECIES_TEDDIURSA; mkMon 24 24 SPECIES_TEDDIURSA; mkMon 20 20 SPECIES_TEDDIURSA; mkMon 26 26 SPECIES_TEDDIURSA; mkMon 22 22 SPECIES_TEDDIURSA; mkMon 24 24 SPECIES_TEDDIURSA; mkMon 28 28 SPECIES_TEDDIURSA; mkMon 18 18 SPECIES_TEDDIURSA; mkMon 20 20 SPECIES_TEDDIURSA; mkMon 26 26 SPECIES_TEDDIURSA; mkMon 20 20 SPECIES_TEDDIURSA; mkMon 26 26 SPECIES_TEDDIURSA]))
     None
     None
     None;
   mkEnc "MAP_SIX_ISLAND_ALTERING_CAVE" "sSixIslandAlteringCave_6_FireRed"
     (Some (mkMons 5 [mkMon 22 22 SPECIES_AIPOM; mkMon 24 24 SPECIES_AIPOM; mkMon 20 20 SPECIES_AIPOM; mkMon 26 26 SPECIES_AIPOM; mkMon 22 22 SPECIES_AIPOM; mkMon 24 24 SPECIES_AIPOM; mkMon 28 28 SPECIES_AIPOM; mkMon 18 18 SPECIES_AIPOM; mkMon 20 20 SPECIES_AIPOM; mkMon 26 26 SPECIES_AIPOM; mkMon 20 20 SPECIES_AIPOM; mkMon 26 26 SPECIES_AIPOM]))
     None
     None
     None;
   mkEnc "MAP_SIX_ISLAND_ALTERING_CAVE" "sSixIslandAlteringCave_7_FireRed"
     (Some (mkMons 5 [mkMon 22 22 SPECIES_SHUCKLE; mkMon 24 24 SPECIES_SHUCKLE; mkMon 20 20 SPECIES_SHUCKLE; mkMon 26 26 SPECIES_SHUCKLE; mkMon 22 22 SPECIES_SHUCKLE; mkMon 24 24 SPECIES_SHUCKLE; mkMon 28 28 SPECIES_SHUCKLE; mkMon 18 18 SPECIES_SHUCKLE; mkMon 20 20 SPECIES_SHUCKLE; mkMon 26 26 SPECIES_SHUCKLE; mkMon 20 20 SPECIES_SHUCKLE; mkMon 26 26 SPECIES_SHUCKLE]))
     None
     None
     None;
   mkEnc "MAP_SIX_ISLAND_ALTERING_CAVE" "sSixIslandAlteringCave_8_FireRed"
     (Some (mkMons 5 [mkMon 22 22 SPECIES_STANTLER; mkMon 24 24 SPECIES_STANTLER; mkMon 20 20 SPECIES_STANTLER; mkMon 26 26 SPECIES_STANTLER; mkMon 22 22 SPECIES_STANTLER; mkMon 24 24 SPECIES_STANTLER; mkMon 28 28 SPECIES_STANTLER; mkMon 18 18 SPECIES_STANTLER; mkMon 20 20 SPECIES_STANTLER; mkMon 26 26 SPECIES_STANTLER; mkMon 20 20 SPECIES_STANTLER; mkMon 26 26 SPECIES_STANTLER]))
     None
     None
     None;
   mkEnc "MAP_SIX_ISLAND_ALTERING_CAVE" "sSixIslandAlteringCave_9_FireRed"
     (Some (mkMons 5 [mkMon 22 22 SPECIES_SMEARGLE; mkMon 24 24 SPECIES_SMEARGLE; mkMon 20 20 SPECIES_SMEARGLE; mkMon 26 26 SPECIES_SMEARGLE; mkMon 22 22 SPECIES_SMEARGLE; mkMon 24 24 SPECIES_SMEARGLE; mkMon 28 28 SPECIES_SMEARGLE; mkMon 18 18 SPECIES_SMEARGLE; mkMon 20 20 SPECIES_SMEARGLE; mkMon 26 26 SPECIES_SMEARGLE; mkMon 20 20 SPECIES_SMEARGLE; mkMon 26 26 SPECIES_SMEARGLE]))
     None
     None
     None;
   mkEnc "MAP_SEVEN_ISLAND_TANOBY_RUINS_MONEAN_CHAMBER" "sSevenIslandTanobyRuinsMoneanChamber_LeafGreen"
     (Some (mkMons 7 [mkMon 25 25 SPECIES_UNOWN; mkMon 25 25 SPECIES_UNOWN; mkMon 25 25 SPECIES_UNOWN; mkMon 25 25 SPECIES_UNOWN; mkMon 25 25 SPECIES_UNOWN; mkMon 25 25 SPECIES_UNOWN; mkMon 25 25 SPECIES_UNOWN; mkMon 25 25 SPECIES_UNOWN; mkMon 25 25 SPECIES_UNOWN; mkMon 25 25 SPECIES_UNOWN; mkMon 25 25 SPECIES_UNOWN; mkMon 25 25 SPECIES_UNOWN]))
     None
     None
     None;
   mkEnc "MAP_SEVEN_ISLAND_TANOBY_RUINS_LIPTOO_CHAMBER" "sSevenIslandTanobyRuinsLiptooChamber_LeafGreen"
     (Some (mkMons 7 [mkMon 25 25 SPECIES_UNOWN; mkMon 25 25 SPECIES_UNOWN; mkMon 25 25 SPECIES_UNOWN; mkMon 25 25 SPECIES_UNOWN; mkMon 25 25 SPECIES_UNOWN; mkMon 25 25 SPECIES_UNOWN; mkMon 25 25 SPECIES_UNOWN; mkMon 25 25 SPECIES_UNOWN; mkMon 25 25 SPECIES_UNOWN; mkMon 25 25 SPECIES_UNOWN; mkMon 25 25 SPECIES_UNOWN; mkMon 25 25 SPECIES_UNOWN]))
     None
     None
     None;
   mkEnc "MAP_SEVEN_ISLAND_TANOBY_RUINS_WEEPTH_CHAMBER" "sSevenIslandTanobyRuinsWeepthChamber_LeafGreen"
     (Some (mkMons 7 [mkMon 25 25 SPECIES_UNOWN; mkMon 25 25 SPECIES_UNOWN; mkMon 25 25 SPECIES_UNOWN; mkMon 25 25 SPECIES_UNOWN; mkMon 25 25 SPECIES_UNOWN; mkMon 25 25 SPECIES_UNOWN; mkMon 25 25 SPECIES_UNOWN; mkMon 25 25 SPECIES_UNOWN; mkMon 25 25 SPECIES_UNOWN; mkMon 25 25 SPECIES_UNOWN; mkMon 25 25 SPECIES_UNOWN; mkMon 25 25 SPECIES_UNOWN]))
     None
     None
     None;
   mkEnc "MAP_SEVEN_ISLAND_TANOBY_RUINS_DILFORD_CHAMBER" "sSevenIslandTanobyRuinsDilfordChamber_LeafGreen"
     (Some (mkMons 7 [mkMon 25 25 SPECIES_UNOWN; mkMon 25 25 SPECIES_UNOWN; mkMon 25 25 SPECIES_UNOWN; mkMon 25 25 SPECIES_UNOWN; mkMon 25 25 SPECIES_UNOWN; mkMon 25 25 SPECIES_UNOWN; mkMon 25 25 SPECIES_UNOWN; mkMon 25 25 SPECIES_UNOWN; mkMon 25 25 SPECIES_UNOWN; mkMon 25 25 SPECIES_UNOWN; mkMon 25 25 SPECIES_UNOWN; mkMon 25 25 SPECIES_UNOWN]))
     None
     None
     None;
   mkEnc "MAP_SEVEN_ISLAND_TANOBY_RUINS_SCUFIB_CHAMBER" "sSevenIslandTanobyRuinsScufibChamber_LeafGreen"
     (Some (mkMons 7 [mkMon 25 25 SPECIES_UNOWN; mkMon 25 25 SPECIES_UNOWN; mkMon 25 25 SPECIES_UNOWN; mkMon 25 25 SPECIES_UNOWN; mkMon 25 25 SPECIES_UNOWN; mkMon 25 25 SPECIES_UNOWN; mkMon 25 25 SPECIES_UNOWN; mkMon 25 25 SPECIES_UNOWN; mkMon 25 25 SPECIES_UNOWN; mkMon 25 25 SPECIES_UNOWN; mkMon 25 25 SPECIES_UNOWN; mkMon 25 25 SPECIES_UNOWN]))
     None
     None
     None;
   mkEnc "MAP_SEVEN_ISLAND_TANOBY_RUINS_RIXY_CHAMBER" "sSevenIslandTanobyRuinsRixyChamber_LeafGreen"
     (Some (mkMons 7 [mkMon 25 25 SPECIES_UNOWN; mkMon 25 25 SPECIES_UNOWN; mkMon 25 25 SPECIES_UNOWN; mkMon 25 25 SPECIES_UNOWN; mkMon 25 25 SPECIES_UNOWN; mkMon 25 25 SPECIES_UNOWN; mkMon 25 25 SPECIES_UNOWN; mkMon 25 25 SPECIES_UNOWN; mkMon 25 25 SPECIES_UNOWN; mkMon 25 25 SPECIES_UNOWN; mkMon 25 25 SPECIES_UNOWN; mkMon 25 25 SPECIES_UNOWN]))
     None
     None
     None;
   mkEnc "MAP_SEVEN_ISLAND_TANOBY_RUINS_VIAPOIS_CHAMBER" "sSevenIslandTanobyRuinsViapoisChamber_LeafGreen"
     (Some (mkMons 7 [mkMon 25 25 SPECIES_UNOWN; mkMon 25 25 SPECIES_UNOWN; mkMon 25 25 SPECIES_UNOWN; mkMon 25 25 SPECIES_UNOWN; mkMon 25 25 SPECIES_UNOWN; mkMon 25 25 SPECIES_UNOWN; mkMon 25 25 SPECIES_UNOWN; mkMon 25 25 SPECIES_UNOWN; mkMon 25 25 SPECIES_UNOWN; mkMon 25 25 SPECIES_UNOWN; mkMon 25 25 SPECIES_UNOWN; mkMon 25 25 SPECIES_UNOWN]))
     None
     None
     None;
   mkEnc "MAP_VIRIDIAN_FOREST" "sViridianForest_LeafGreen"
     (Some (mkMons 14 [mkMon 4 4 SPECIES_CATERPIE; mkMon 4 4 SPECIES_WEEDLE; mkMon 5 5 SPECIES_CATERPIE; mkMon 5 5 SPECIES_WEEDLE; mkMon 3 3 SPECIES_CATERPIE; mkMon 3 3 SPECIES_WEEDLE; mkMon 5 5 SPECIES_KAKUNA; mkMon 5 5 SPECIES_METAPOD; mkMon 4 4 SPECIES_METAPOD; mkMon 3 3 SPECIES_PIKACHU; mkMon 6 6 SPECIES_METAPOD; mkMon 5 5 SPECIES_PIKACHU]))
     None
     None
     None;
   mkEnc "MAP_MT_MOON_1F" "sMtMoon1F_LeafGreen"
     (Some (mkMons 7 [mkMon 7 7 SPECIES_ZUBAT; mkMon 8 8 SPECIES_ZUBAT; mkMon 7 7 SPECIES_GEODUDE; mkMon 9 9 SPECIES_ZUBAT; mkMon 10 10 SPECIES_ZUBAT; mkMon 8 8 SPECIES_GEODUDE; mkMon 9 9 SPECIES_GEODUDE; mkMon 8 8 SPECIES_PARAS; mkMon 7 7 SPECIES_ZUBAT; mkMon 7 7 SPECIES_ZUBAT; mkMon 7 7 SPECIES_ZUBAT; mkMon 8 8 SPECIES_CLEFAIRY]))
     None
     None
     None;
   mkEnc "MAP_MT_MOON_B1F" "sMtMoonB1F_LeafGreen"
     (Some (mkMons 5 [mkMon 7 7 SPECIES_PARAS; mkMon 8 8 SPECIES_PARAS; mkMon 5 5 SPECIES_PARAS; mkMon 6 6 SPECIES_PARAS; mkMon 9 9 SPECIES_PARAS; mkMon 10 10 SPECIES_PARAS; mkMon 7 7 SPECIES_PARAS; mkMon 8 8 SPECIES_PARAS; mkMon 5 5 SPECIES_PARAS; mkMon 6 6 SPECIES_PARAS; mkMon 9 9 SPECIES_PARAS; mkMon 10 10 SPECIES_PARAS]))
     None
     None
     None;
   mkEnc "MAP_MT_MOON_B2F" "sMtMoonB2F_LeafGreen"
     (Some (mkMons 7 [mkMon 8 8 SPECIES_ZUBAT; mkMon 9 9 SPECIES_GEODUDE; mkMon 9 9 SPECIES_ZUBAT; mkMon 10 10 SPECIES_ZUBAT; mkMon 10 10 SPECIES_GEODUDE; mkMon 10 10 SPECIES_PARAS; mkMon 12 12 SPECIES_PARAS; mkMon 10 10 SPECIES_CLEFAIRY; mkMon 11 11 SPECIES_ZUBAT; mkMon 11 11 SPECIES_ZUBAT; mkMon 11 11 SPECIES_ZUBAT; mkMon 12 12 SPECIES_CLEFAIRY]))
     None
     None
     None;
   mkEnc "MAP_SSANNE_EXTERIOR" "sSSAnneExterior_LeafGreen"
     None
     (Some (mkMons 1 [mkMon 5 10 SPECIES_TENTACOOL; mkMon 10 20 SPECIES_TENTACOOL; mkMon 20 30 SPECIES_TENTACOOL; mkMon 30 35 SPECIES_TENTACOOL; mkMon 35 40 SPECIES_TENTACOOL]))
     None
     (Some (mkMons 10 [mkMon 5 5 SPECIES_MAGIKARP; mkMon 5 5 SPECIES_MAGIKARP; mkMon 5 15 SPECIES_KRABBY; mkMon 5 15 SPECIES_MAGIKARP; mkMon 5 15 SPECIES_HORSEA; mkMon 15 25 SPECIES_KRABBY; mkMon 15 25 SPECIES_STARYU; mkMon 15 25 SPECIES_GYARADOS; mkMon 25 35 SPECIES_KRABBY; mkMon 25 35 SPECIES_SLOWPOKE]));
   mkEnc "MAP_DIGLETTS_CAVE_B1F" "sDiglettsCaveB1F_LeafGreen"
     (Some (mkMons 5 [mkMon 18 18 SPECIES_DIGLETT; mkMon 19 19 SPECIES_DIGLETT; mkMon 17 17 SPECIES_DIGLETT; mkMon 15 15 SPECIES_DIGLETT; mkMon 16 16 SPECIES_DIGLETT; mkMon 20 20 SPECIES_DIGLETT; mkMon 21 21 SPECIES_DIGLETT; mkMon 22 22 SPECIES_DIGLETT; mkMon 17 17 SPECIES_DIGLETT; mkMon 29 29 SPECIES_DUGTRIO; mkMon 17 17 SPECIES_DIGLETT; mkMon 31 31 SPECIES_DUGTRIO]))
     None
     None
     None;
   mkEnc "MAP_VICTORY_ROAD_1F" "sVictoryRoad1F_LeafGreen"
     (Some (mkMons 7 [mkMon 32 32 SPECIES_MACHOP; mkMon 32 32 SPECIES_GEODUDE; mkMon 40 40 SPECIES_ONIX; mkMon 43 43 SPECIES_ONIX; mkMon 46 46 SPECIES_ONIX; mkMon 32 32 SPECIES_ZUBAT; mkMon 44 44 SPECIES_SANDSLASH; mkMon 44 44 SPECIES_GOLBAT; mkMon 44 44 SPECIES_MAROWAK; mkMon 44 44 SPECIES_MACHOKE; mkMon 46 46 SPECIES_MACHOKE; mkMon 46 46 SPECIES_MAROWAK]))
     None
     None
     None;
   mkEnc "MAP_VICTORY_ROAD_2F" "sVictoryRoad2F_LeafGreen"
     (Some (mkMons 7 [mkMon 34 34 SPECIES_MACHOP; mkMon 34 34 SPECIES_GEODUDE; mkMon 42 42 SPECIES_PRIMEAPE; mkMon 45 45 SPECIES_ONIX; mkMon 48 48 SPECIES_ONIX; mkMon 34 34 SPECIES_ZUBAT; mkMon 46 46 SPECIES_SANDSLASH; mkMon 46 46 SPECIES_GOLBAT; mkMon 46 46 SPECIES_MAROWAK; mkMon 46 46 SPECIES_MACHOKE; mkMon 48 48 SPECIES_MACHOKE; mkMon 48 48 SPECIES_MAROWAK]))
     None
     None
     None;
   mkEnc "MAP_VICTORY_ROAD_3F" "sVictoryRoad3F_LeafGreen"
     (Some (mkMons 7 [mkMon 32 32 SPECIES_MACHOP; mkMon 32 32 SPECIES_GEODUDE; mkMon 40 40 SPECIES_ONIX; mkMon 43 43 SPECIES_ONIX; mkMon 46 46 SPECIES_ONIX; mkMon 32 32 SPECIES_ZUBAT; mkMon 44 44 SPECIES_SANDSLASH; mkMon 44 44 SPECIES_GOLBAT; mkMon 44 44 SPECIES_MAROWAK; mkMon 44 44 SPECIES_MACHOKE; mkMon 46 46 SPECIES_MACHOKE; mkMon 46 46 SPECIES_MAROWAK]))
     None
     None
     None;
   mkEnc "MAP_POKEMON_MANSION_1F" "sPokemonMansion1F_LeafGreen"
     (Some (mkMons 7 [mkMon 28 28 SPECIES_GRIMER; mkMon 32 32 SPECIES_RATICATE; mkMon 30 30 SPECIES_GRIMER; mkMon 36 36 SPECIES_RATICATE; mkMon 30 30 SPECIES_VULPIX; mkMon 28 28 SPECIES_RATTATA; mkMon 28 28 SPECIES_KOFFING; mkMon 32 32 SPECIES_MUK; mkMon 32 32 SPECIES_VULPIX; mkMon 26 26 SPECIES_RATTATA; mkMon 32 32 SPECIES_VULPIX; mkMon 26 26 SPECIES_RATTATA]))
     None
     None
     None;
   mkEnc "MAP_POKEMON_MANSION_2F" "sPokemonMansion2F_LeafGreen"
     (Some (mkMons 7 [mkMon 28 28 SPECIES_GRIMER; mkMon 32 32 SPECIES_RATICATE; mkMon 30 30 SPECIES_GRIMER; mkMon 36 36 SPECIES_RATICATE; mkMon 30 30 SPECIES_VULPIX; mkMon 28 28 SPECIES_RATTATA; mkMon 28 28 SPECIES_KOFFING; mkMon 32 32 SPECIES_MUK; mkMon 32 32 SPECIES_VULPIX; mkMon 26 26 SPECIES_RATTATA; mkMon 32 32 SPECIES_VULPIX; mkMon 26 26 SPECIES_RATTATA]))
     None
     None
     None;
   mkEnc "MAP_POKEMON_MANSION_3F" "sPokemonMansion3F_LeafGreen"
     (Some (mkMons 7 [mkMon 28 28 SPECIES_GRIMER; mkMon 32 32 SPECIES_RATICATE; mkMon 30 30 SPECIES_GRIMER; mkMon 36 36 SPECIES_RATICATE; mkMon 30 30 SPECIES_VULPIX; mkMon 28 28 SPECIES_RATTATA; mkMon 28 28 SPECIES_KOFFING; mkMon 32 32 SPECIES_MUK; mkMon 32 32 SPECIES_VULPIX; mkMon 26 26 SPECIES_RATTATA; mkMon 32 32 SPECIES_VULPIX; mkMon 26 26 SPECIES_RATTATA]))
     None
     None
     None;
   mkEnc "MAP_POKEMON_MANSION_B1F" "sPokemonMansionB1F_LeafGreen"
     (Some (mkMons 5 [mkMon 28 28 SPECIES_GRIMER; mkMon 34 34 SPECIES_RATICATE; mkMon 30 30 SPECIES_GRIMER; mkMon 30 30 SPECIES_DITTO; mkMon 30 30 SPECIES_VULPIX; mkMon 38 38 SPECIES_RATICATE; mkMon 28 28 SPECIES_KOFFING; mkMon 34 34 SPECIES_MUK; mkMon 32 32 SPECIES_VULPIX; mkMon 26 26 SPECIES_RATTATA; mkMon 32 32 SPECIES_VULPIX; mkMon 26 26 SPECIES_RATTATA]))
     None
     None
     None;
   mkEnc "MAP_SAFARI_ZONE_CENTER" "sSafariZoneCenter_LeafGreen"
     (Some (mkMons 21 [mkMon 25 25 SPECIES_RHYHORN; mkMon 22 22 SPECIES_NIDORAN_F; mkMon 24 24 SPECIES_EXEGGCUTE; mkMon 25 25 SPECIES_EXEGGCUTE; mkMon 22 22 SPECIES_VENONAT; mkMon 31 31 SPECIES_NIDORINA; mkMon 31 31 SPECIES_NIDORINO; mkMon 30 30 SPECIES_PARASECT; mkMon 22 22 SPECIES_VENONAT; mkMon 23 23 SPECIES_PINSIR; mkMon 22 22 SPECIES_VENONAT; mkMon 23 23 SPECIES_CHANSEY]))
     (Some (mkMons 2 [mkMon 20 25 SPECIES_SLOWPOKE; mkMon 20 25 SPECIES_SLOWPOKE; mkMon 25 30 SPECIES_SLOWPOKE; mkMon 30 35 SPECIES_SLOWPOKE; mkMon 35 40 SPECIES_SLOWPOKE]))
     None
     (Some (mkMons 20 [mkMon 5 5 SPECIES_MAGIKARP; mkMon 5 5 SPECIES_MAGIKARP; mkMon 5 15 SPECIES_GOLDEEN; mkMon 5 15 SPECIES_MAGIKARP; mkMon 5 15 SPECIES_POLIWAG; mkMon 15 25 SPECIES_GOLDEEN; mkMon 20 30 SPECIES_SEAKING; mkMon 15 25 SPECIES_DRATINI; mkMon 15 35 SPECIES_SLOWPOKE; mkMon 25 35 SPECIES_DRAGONAIR]));
   mkEnc "MAP_SAFARI_ZONE_EAST" "sSafariZoneEast_LeafGreen"
     (Some (mkMons 21 [mkMon 24 24 SPECIES_NIDORAN_F; mkMon 26 26 SPECIES_DODUO; mkMon 23 23 SPECIES_EXEGGCUTE; mkMon 25 25 SPECIES_EXEGGCUTE; mkMon 22 22 SPECIES_PARAS; mkMon 33 33 SPECIES_NIDORINA; mkMon 24 24 SPECIES_NIDORAN_M; mkMon 25 25 SPECIES_PARASECT; mkMon 22 22 SPECIES_PARAS; mkMon 25 25 SPECIES_KANGASKHAN; mkMon 22 22 SPECIES_PARAS; mkMon 28 28 SPECIES_PINSIR]))
     (Some (mkMons 2 [mkMon 20 25 SPECIES_SLOWPOKE; mkMon 20 25 SPECIES_SLOWPOKE; mkMon 25 30 SPECIES_SLOWPOKE; mkMon 30 35 SPECIES_SLOWPOKE; mkMon 35 40 SPECIES_SLOWPOKE]))
     None
     (Some (mkMons 20 [mkMon 5 5 SPECIES_MAGIKARP; mkMon 5 5 SPECIES_MAGIKARP; mkMon 5 15 SPECIES_GOLDEEN; mkMon 5 15 SPECIES_MAGIKARP; mkMon 5 15 SPECIES_POLIWAG; mkMon 15 25 SPECIES_GOLDEEN; mkMon 20 30 SPECIES_SEAKING; mkMon 15 25 SPECIES_DRATINI; mkMon 15 35 SPECIES_SLOWPOKE; mkMon 25 35 SPECIES_DRAGONAIR]));
   mkEnc "MAP_SAFARI_ZONE_NORTH" "sSafariZoneNorth_LeafGreen"
     (Some (mkMons 21 [mkMon 26 26 SPECIES_RHYHORN; mkMon 30 30 SPECIES_NIDORAN_F; mkMon 25 25 SPECIES_EXEGGCUTE; mkMon 27 27 SPECIES_EXEGGCUTE; mkMon 23 23 SPECIES_PARAS; mkMon 30 30 SPECIES_NIDORINA; mkMon 30 30 SPECIES_NIDORINO; mkMon 32 32 SPECIES_VENOMOTH; mkMon 23 23 SPECIES_PARAS; mkMon 26 26 SPECIES_CHANSEY; mkMon 23 23 SPECIES_PARAS; mkMon 28 28 SPECIES_TAUROS]))
     (Some (mkMons 2 [mkMon 20 25 SPECIES_SLOWPOKE; mkMon 20 25 SPECIES_SLOWPOKE; mkMon 25 30 SPECIES_SLOWPOKE; mkMon 30 35 SPECIES_SLOWPOKE; mkMon 35 40 SPECIES_SLOWPOKE]))
     None
     (Some (mkMons 20 [mkMon 5 5 SPECIES_MAGIKARP; mkMon 5 5 SPECIES_MAGIKARP; mkMon 5 15 SPECIES_GOLDEEN; mkMon 5 15 SPECIES_MAGIKARP; mkMon 5 15 SPECIES_POLIWAG; mkMon 15 25 SPECIES_GOLDEEN; mkMon 20 30 SPECIES_SEAKING; mkMon 15 25 SPECIES_DRATINI; mkMon 15 35 SPECIES_SLOWPOKE; mkMon 25 35 SPECIES_DRAGONAIR]));
   mkEnc "MAP_SAFARI_ZONE_WEST" "sSafariZoneWest_LeafGreen"
     (Some (mkMons 21 [mkMon 26 26 SPECIES_DODUO; mkMon 22 22 SPECIES_NIDORAN_F; mkMon 25 25 SPECIES_EXEGGCUTE; mkMon 27 27 SPECIES_EXEGGCUTE; mkMon 23 23 SPECIES_VENONAT; mkMon 30 30 SPECIES_NIDORINA; mkMon 30 30 SPECIES_NIDORAN_M; mkMon 32 32 SPECIES_VENOMOTH; mkMon 23 23 SPECIES_VENONAT; mkMon 25 25 SPECIES_TAUROS; mkMon 23 23 SPECIES_VENONAT; mkMon 28 28 SPECIES_KANGASKHAN]))
     (Some (mkMons 2 [mkMon 20 25 SPECIES_SLOWPOKE; mkMon 20 25 SPECIES_SLOWPOKE; mkMon 25 30 SPECIES_SLOWPOKE; mkMon 30 35 SPECIES_SLOWPOKE; mkMon 35 40 SPECIES_SLOWPOKE]))
     None
     (Some (mkMons 20 [mkMon 5 5 SPECIES_MAGIKARP; mkMon 5 5 SPECIES_MAGIKARP; mkMon 5 15 SPECIES_GOLDEEN; mkMon 5 15 SPECIES_MAGIKARP; mkMon 5 15 SPECIES_POLIWAG; mkMon 15 25 SPECIES_GOLDEEN; mkMon 20 30 SPECIES_SEAKING; mkMon 15 25 SPECIES_DRATINI; mkMon 15 35 SPECIES_SLOWPOKE; mkMon 25 35 SPECIES_DRAGONAIR]));
   mkEnc "MAP_CERULEAN_CAVE_1F" "sCeruleanCave1F_LeafGreen"
     (Some (mkMons 7 [mkMon 49 49 SPECIES_MAGNETON; mkMon 49 49 SPECIES_PARASECT; mkMon 46 46 SPECIES_GOLBAT; mkMon 46 46 SPECIES_MACHOKE; mkMon 52 52 SPECIES_PRIMEAPE; mkMon 52 52 SPECIES_DITTO; mkMon 58 58 SPECIES_ELECTRODE; mkMon 58 58 SPECIES_PARASECT; mkMon 55 55 SPECIES_GOLBAT; mkMon 55 55 SPECIES_WOBBUFFET; mkMon 61 61 SPECIES_PRIMEAPE; mkMon 61 61 SPECIES_DITTO]))
     (Some (mkMons 2 [mkMon 30 40 SPECIES_SLOWPOKE; mkMon 40 50 SPECIES_SLOWBRO; mkMon 45 55 SPECIES_SLOWBRO; mkMon 40 50 SPECIES_SLOWPOKE; mkMon 40 50 SPECIES_SLOWPOKE]))
     (Some (mkMons 50 [mkMon 30 40 SPECIES_GEODUDE; mkMon 40 50 SPECIES_GRAVELER; mkMon 45 55 SPECIES_GRAVELER; mkMon 40 50 SPECIES_GEODUDE; mkMon 40 50 SPECIES_GEODUDE]))
     (Some (mkMons 20 [mkMon 5 5 SPECIES_MAGIKARP; mkMon 5 5 SPECIES_MAGIKARP; mkMon 5 15 SPECIES_POLIWAG; mkMon 5 15 SPECIES_MAGIKARP; mkMon 5 15 SPECIES_GOLDEEN; mkMon 15 25 SPECIES_POLIWAG; mkMon 20 30 SPECIES_POLIWHIRL; mkMon 15 25 SPECIES_GYARADOS; mkMon 15 25 SPECIES_SLOWPOKE; mkMon 25 35 SPECIES_SLOWPOKE]));
   mkEnc "MAP_CERULEAN_CAVE_2F" "sCeruleanCave2F_LeafGreen"
     (Some (mkMons 7 [mkMon 49 49 SPECIES_GOLBAT; mkMon 49 49 SPECIES_MACHOKE; mkMon 52 52 SPECIES_MAGNETON; mkMon 52 52 SPECIES_PARASECT; mkMon 55 55 SPECIES_KADABRA; mkMon 55 55 SPECIES_DITTO; mkMon 58 58 SPECIES_GOLBAT; mkMon 58 58 SPECIES_WOBBUFFET; mkMon 61 61 SPECIES_ELECTRODE; mkMon 61 61 SPECIES_PARASECT; mkMon 64 64 SPECIES_KADABRA; mkMon 64 64 SPECIES_DITTO]))
     None
     (Some (mkMons 50 [mkMon 35 45 SPECIES_GEODUDE; mkMon 45 55 SPECIES_GRAVELER; mkMon 50 60 SPECIES_GRAVELER; mkMon 45 55 SPECIES_GEODUDE; mkMon 45 55 SPECIES_GEODUDE]))
     None;
   mkEnc "MAP_CERULEAN_CAVE_B1F" "sCeruleanCaveB1F_LeafGreen"
     (Some (mkMons 7 [mkMon 58 58 SPECIES_KADABRA; mkMon 58 58 SPECIES_DITTO; mkMon 55 55 SPECIES_MAGNETON; mkMon 55 55 SPECIES_PARASECT; mkMon 52 52 SPECIES_GOLBAT; mkMon 52 52 SPECIES_MACHOKE; mkMon 67 67 SPECIES_KADABRA; mkMon 67 67 SPECIES_DITTO; mkMon 64 64 SPECIES_ELECTRODE; mkMon 64 64 SPECIES_PARASECT; mkMon 61 61 SPECIES_GOLBAT; mkMon 61 61 SPECIES_WOBBUFFET]))
     (Some (mkMons 2 [mkMon 40 50 SPECIES_SLOWPOKE; mkMon 50 60 SPECIES_SLOWBRO; mkMon 55 65 SPECIES_SLOWBRO; mkMon 50 60 SPECIES_SLOWPOKE; mkMon 50 60 SPECIES_SLOWPOKE]))
     (Some (mkMons 50 [mkMon 40 50 SPECIES_GEODUDE; mkMon 50 60 SPECIES_GRAVELER; mkMon 55 65 SPECIES_GRAVELER; mkMon 50 60 SPECIES_GEODUDE; mkMon 50 60 SPECIES_GEODUDE]))
     (Some (mkMons 20 [mkMon 5 5 SPECIES_MAGIKARP; mkMon 5 5 SPECIES_MAGIKARP; mkMon 5 15 SPECIES_POLIWAG; mkMon 5 15 SPECIES_MAGIKARP; mkMon 5 15 SPECIES_GOLDEEN; mkMon 15 25 SPECIES_POLIWAG; mkMon 20 30 SPECIES_POLIWHIRL; mkMon 15 25 SPECIES_GYARADOS; mkMon 15 25 SPECIES_SLOWPOKE; mkMon 25 35 SPECIES_GYARADOS]));
   mkEnc "MAP_ROCK_TUNNEL_1F" "sRockTunnel1F_LeafGreen"
     (Some (mkMons 7 [mkMon 15 15 SPECIES_ZUBAT; mkMon 16 16 SPECIES_GEODUDE; mkMon 16 16 SPECIES_MANKEY; mkMon 17 17 SPECIES_GEODUDE; mkMon 16 16 SPECIES_ZUBAT; mkMon 16 16 SPECIES_MACHOP; mkMon 17 17 SPECIES_MANKEY; mkMon 17 17 SPECIES_MACHOP; mkMon 15 15 SPECIES_GEODUDE; mkMon 13 13 SPECIES_ONIX; mkMon 15 15 SPECIES_GEODUDE; mkMon 15 15 SPECIES_ONIX]))
     None
     None
     None;
   mkEnc "MAP_ROCK_TUNNEL_B1F" "sRockTunnelB1F_LeafGreen"
     (Some (mkMons 7 [mkMon 16 16 SPECIES_ZUBAT; mkMon 17 17 SPECIES_GEODUDE; mkMon 17 17 SPECIES_MANKEY; mkMon 16 16 SPECIES_GEODUDE; mkMon 15 15 SPECIES_ZUBAT; mkMon 17 17 SPECIES_MACHOP; mkMon 16 16 SPECIES_MANKEY; mkMon 13 13 SPECIES_ONIX; mkMon 15 15 SPECIES_GEODUDE; mkMon 15 15 SPECIES_ONIX; mkMon 15 15 SPECIES_GEODUDE; mkMon 17 17 SPECIES_ONIX]))
     None
     (Some (mkMons 50 [mkMon 5 20 SPECIES_GEODUDE; mkMon 10 20 SPECIES_GEODUDE; mkMon 15 30 SPECIES_GEODUDE; mkMon 25 40 SPECIES_GRAVELER; mkMon 30 40 SPECIES_GRAVELER]))
     None;
   mkEnc "MAP_SEAFOAM_ISLANDS_1F" "sSeafoamIslands1F_LeafGreen"
     (Some (mkMons 7 [mkMon 27 27 SPECIES_SLOWPOKE; mkMon 29 29 SPECIES_SLOWPOKE; mkMon 31 31 SPECIES_SLOWPOKE; mkMon 22 22 SPECIES_ZUBAT; mkMon 22 22 SPECIES_ZUBAT; mkMon 24 24 SPECIES_ZUBAT; mkMon 26 26 SPECIES_GOLBAT; mkMon 28 28 SPECIES_GOLBAT; mkMon 33 33 SPECIES_SLOWPOKE; mkMon 26 26 SPECIES_ZUBAT; mkMon 26 26 SPECIES_SLOWPOKE; mkMon 30 30 SPECIES_GOLBAT]))
     None
     None
     None;
   mkEnc "MAP_SEAFOAM_ISLANDS_B1F" "sSeafoamIslandsB1F_LeafGreen"
     (Some (mkMons 7 [mkMon 29 29 SPECIES_SLOWPOKE; mkMon 31 31 SPECIES_SLOWPOKE; mkMon 28 28 SPECIES_SEEL; mkMon 22 22 SPECIES_ZUBAT; mkMon 22 22 SPECIES_ZUBAT; mkMon 24 24 SPECIES_ZUBAT; mkMon 26 26 SPECIES_GOLBAT; mkMon 28 28 SPECIES_GOLBAT; mkMon 33 33 SPECIES_SLOWBRO; mkMon 26 26 SPECIES_ZUBAT; mkMon 35 35 SPECIES_SLOWBRO; mkMon 30 30 SPECIES_GOLBAT]))
     None
     None
     None;
   mkEnc "MAP_SEAFOAM_ISLANDS_B2F" "sSeafoamIslandsB2F_LeafGreen"
     (Some (mkMons 7 [mkMon 30 30 SPECIES_SLOWPOKE; mkMon 32 32 SPECIES_SLOWPOKE; mkMon 30 30 SPECIES_SEEL; mkMon 32 32 SPECIES_SEEL; mkMon 22 22 SPECIES_ZUBAT; mkMon 24 24 SPECIES_ZUBAT; mkMon 26 26 SPECIES_GOLBAT; mkMon 34 34 SPECIES_SLOWBRO; mkMon 32 32 SPECIES_SLOWBRO; mkMon 28 28 SPECIES_GOLBAT; mkMon 32 32 SPECIES_SLOWBRO; mkMon 30 30 SPECIES_GOLBAT]))
     None
     None
     None;
   mkEnc "MAP_SEAFOAM_ISLANDS_B3F" "sSeafoamIslandsB3F_LeafGreen"
     (Some (mkMons 7 [mkMon 30 30 SPECIES_SEEL; mkMon 32 32 SPECIES_SEEL; mkMon 32 32 SPECIES_SLOWPOKE; mkMon 30 30 SPECIES_SLOWPOKE; mkMon 32 32 SPECIES_SLOWBRO; mkMon 24 24 SPECIES_ZUBAT; mkMon 26 26 SPECIES_GOLBAT; mkMon 34 34 SPECIES_SLOWBRO; mkMon 32 32 SPECIES_DEWGONG; mkMon 28 28 SPECIES_GOLBAT; mkMon 34 34 SPECIES_DEWGONG; mkMon 30 30 SPECIES_GOLBAT]))
     (Some (mkMons 2 [mkMon 25 35 SPECIES_SEEL; mkMon 25 30 SPECIES_KRABBY; mkMon 35 40 SPECIES_DEWGONG; mkMon 30 40 SPECIES_SLOWPOKE; mkMon 35 40 SPECIES_SLOWBRO]))
     None
     (Some (mkMons 20 [mkMon 5 5 SPECIES_MAGIKARP; mkMon 5 5 SPECIES_MAGIKARP; mkMon 5 15 SPECIES_KRABBY; mkMon 5 15 SPECIES_MAGIKARP; mkMon 5 15 SPECIES_HORSEA; mkMon 15 25 SPECIES_KRABBY; mkMon 20 30 SPECIES_KRABBY; mkMon 15 25 SPECIES_GYARADOS; mkMon 15 25 SPECIES_SLOWPOKE; mkMon 25 35 SPECIES_GYARADOS]));
   mkEnc "MAP_SEAFOAM_ISLANDS_B4F" "sSeafoamIslandsB4F_LeafGreen"
     (Some (mkMons 7 [mkMon 30 30 SPECIES_SEEL; mkMon 32 32 SPECIES_SEEL; mkMon 32 32 SPECIES_SLOWPOKE; mkMon 34 34 SPECIES_SEEL; mkMon 32 32 SPECIES_SLOWBRO; mkMon 26 26 SPECIES_GOLBAT; mkMon 34 34 SPECIES_DEWGONG; mkMon 34 34 SPECIES_SLOWBRO; mkMon 36 36 SPECIES_DEWGONG; mkMon 28 28 SPECIES_GOLBAT; mkMon 36 36 SPECIES_DEWGONG; mkMon 30 30 SPECIES_GOLBAT]))
     (Some (mkMons 2 [mkMon 25 35 SPECIES_SEEL; mkMon 25 30 SPECIES_KRABBY; mkMon 35 40 SPECIES_DEWGONG; mkMon 30 40 SPECIES_SLOWPOKE; mkMon 35 40 SPECIES_SLOWBRO]))
     None
     (Some (mkMons 20 [mkMon 5 5 SPECIES_MAGIKARP; mkMon 5 5 SPECIES_MAGIKARP; mkMon 5 15 SPECIES_KRABBY; mkMon 5 15 SPECIES_MAGIKARP; mkMon 5 15 SPECIES_HORSEA; mkMon 15 25 SPECIES_KRABBY; mkMon 20 30 SPECIES_KRABBY; mkMon 15 25 SPECIES_GYARADOS; mkMon 15 25 SPECIES_SLOWPOKE; mkMon 25 35 SPECIES_GYARADOS]));
   mkEnc "MAP_POKEMON_TOWER_3F" "sPokemonTower3F_LeafGreen"
     (Some (mkMons 2 [mkMon 15 15 SPECIES_GASTLY; mkMon 16 16 SPECIES_GASTLY; mkMon 17 17 SPECIES_GASTLY; mkMon 13 13 SPECIES_GASTLY; mkMon 14 14 SPECIES_GASTLY; mkMon 18 18 SPECIES_GASTLY; mkMon 19 19 SPECIES_GASTLY; mkMon 15 15 SPECIES_CUBONE; mkMon 17 17 SPECIES_GASTLY; mkMon 17 17 SPECIES_CUBONE; mkMon 17 17 SPECIES_GASTLY; mkMon 20 20 SPECIES_HAUNTER]))
     None
     None
     None;
   mkEnc "MAP_POKEMON_TOWER_4F" "sPokemonTower4F_LeafGreen"
     (Some (mkMons 4 [mkMon 15 15 SPECIES_GASTLY; mkMon 16 16 SPECIES_GASTLY; mkMon 17 17 SPECIES_GASTLY; mkMon 13 13 SPECIES_GASTLY; mkMon 14 14 SPECIES_GASTLY; mkMon 18 18 SPECIES_GASTLY; mkMon 20 20 SPECIES_HAUNTER; mkMon 15 15 SPECIES_CUBONE; mkMon 17 17 SPECIES_GASTLY; mkMon 17 17 SPECIES_CUBONE; mkMon 17 17 SPECIES_GASTLY; mkMon 19 19 SPECIES_GASTLY]))
     None
     None
     None;
   mkEnc "MAP_POKEMON_TOWER_5F" "sPokemonTower5F_LeafGreen"
     (Some (mkMons 6 [mkMon 15 15 SPECIES_GASTLY; mkMon 16 16 SPECIES_GASTLY; mkMon 17 17 SPECIES_GASTLY; mkMon 13 13 SPECIES_GASTLY; mkMon 14 14 SPECIES_GASTLY; mkMon 18 18 SPECIES_GASTLY; mkMon 20 20 SPECIES_HAUNTER; mkMon 15 15 SPECIES_CUBONE; mkMon 17 17 SPECIES_GASTLY; mkMon 17 17 SPECIES_CUBONE; mkMon 17 17 SPECIES_GASTLY; mkMon 19 19 SPECIES_GASTLY]))
     None
     None
     None;
   mkEnc "MAP_POKEMON_TOWER_6F" "sPokemonTower6F_LeafGreen"
     (Some (mkMons 8 [mkMon 16 16 SPECIES_GASTLY; mkMon 17 17 SPECIES_GASTLY; mkMon 18 18 SPECIES_GASTLY; mkMon 14 14 SPECIES_GASTLY; mkMon 15 15 SPECIES_GASTLY; mkMon 19 19 SPECIES_GASTLY; mkMon 21 21 SPECIES_HAUNTER; mkMon 17 17 SPECIES_CUBONE; mkMon 18 18 SPECIES_GASTLY; mkMon 19 19 SPECIES_CUBONE; mkMon 18 18 SPECIES_GASTLY; mkMon 23 23 SPECIES_HAUNTER]))
     None
     None
     None;
   mkEnc "MAP_POKEMON_TOWER_7F" "sPokemonTower7F_LeafGreen"
     (Some (mkMons 10 [mkMon 16 16 SPECIES_GASTLY; mkMon 17 17 SPECIES_GASTLY; mkMon 18 18 SPECIES_GASTLY; mkMon 15 15 SPECIES_GASTLY; mkMon 19 19 SPECIES_GASTLY; mkMon 23 23 SPECIES_HAUNTER; mkMon 17 17 SPECIES_CUBONE; mkMon 19 19 SPECIES_CUBONE; mkMon 18 18 SPECIES_GASTLY; mkMon 23 23 SPECIES_HAUNTER; mkMon 18 18 SPECIES_GASTLY; mkMon 25 25 SPECIES_HAUNTER]))
     None
     None
     None;
   mkEnc "MAP_POWER_PLANT" "sPowerPlant_LeafGreen"
     (Some (mkMons 7 [mkMon 22 22 SPECIES_VOLTORB; mkMon 22 22 SPECIES_MAGNEMITE; mkMon 25 25 SPECIES_VOLTORB; mkMon 25 25 SPECIES_MAGNEMITE; mkMon 22 22 SPECIES_PIKACHU; mkMon 24 24 SPECIES_PIKACHU; mkMon 31 31 SPECIES_MAGNETON; mkMon 34 34 SPECIES_MAGNETON; mkMon 26 26 SPECIES_PIKACHU; mkMon 31 31 SPECIES_MAGNETON; mkMon 26 26 SPECIES_PIKACHU; mkMon 34 34 SPECIES_MAGNETON]))
     None
     None
     None;
   mkEnc "MAP_MT_EMBER_EXTERIOR" "sMtEmberExterior_LeafGreen"
     (Some (mkMons 21 [mkMon 30 30 SPECIES_PONYTA; mkMon 38 38 SPECIES_FEAROW; mkMon 33 33 SPECIES_PONYTA; mkMon 32 32 SPECIES_SPEAROW; mkMon 35 35 SPECIES_MACHOP; mkMon 33 33 SPECIES_GEODUDE; mkMon 36 36 SPECIES_PONYTA; mkMon 40 40 SPECIES_FEAROW; mkMon 38 38 SPECIES_MAGMAR; mkMon 39 39 SPECIES_RAPIDASH; mkMon 40 40 SPECIES_MAGMAR; mkMon 42 42 SPECIES_RAPIDASH]))
     None
     (Some (mkMons 50 [mkMon 5 20 SPECIES_GEODUDE; mkMon 10 20 SPECIES_GEODUDE; mkMon 15 30 SPECIES_GEODUDE; mkMon 25 40 SPECIES_GRAVELER; mkMon 30 40 SPECIES_GRAVELER]))
     None;
   mkEnc "MAP_MT_EMBER_SUMMIT_PATH_1F" "sMtEmberSummitPath1F_LeafGreen"
     (Some (mkMons 7 [mkMon 33 33 SPECIES_GEODUDE; mkMon 35 35 SPECIES_MACHOP; mkMon 29 29 SPECIES_GEODUDE; mkMon 31 31 SPECIES_GEODUDE; mkMon 31 31 SPECIES_MACHOP; mkMon 33 33 SPECIES_MACHOP; mkMon 35 35 SPECIES_GEODUDE; mkMon 37 37 SPECIES_MACHOP; mkMon 37 37 SPECIES_GEODUDE; mkMon 39 39 SPECIES_MACHOP; mkMon 37 37 SPECIES_GEODUDE; mkMon 39 39 SPECIES_MACHOP]))
     None
     None
     None;
   mkEnc "MAP_MT_EMBER_SUMMIT_PATH_2F" "sMtEmberSummitPath2F_LeafGreen"
     (Some (mkMons 7 [mkMon 34 34 SPECIES_GEODUDE; mkMon 36 36 SPECIES_MACHOP; mkMon 30 30 SPECIES_GEODUDE; mkMon 32 32 SPECIES_GEODUDE; mkMon 32 32 SPECIES_MACHOP; mkMon 34 34 SPECIES_MACHOP; mkMon 38 38 SPECIES_MACHOKE; mkMon 38 38 SPECIES_MACHOKE; mkMon 40 40 SPECIES_MACHOKE; mkMon 40 40 SPECIES_MACHOKE; mkMon 40 40 SPECIES_MACHOKE; mkMon 40 40 SPECIES_MACHOKE]))
     None
     (Some (mkMons 50 [mkMon 5 20 SPECIES_GEODUDE; mkMon 10 20 SPECIES_GEODUDE; mkMon 15 30 SPECIES_GEODUDE; mkMon 25 40 SPECIES_GRAVELER; mkMon 30 40 SPECIES_GRAVELER]))
     None;
   mkEnc "MAP_MT_EMBER_SUMMIT_PATH_3F" "sMtEmberSummitPath3F_LeafGreen"
     (Some (mkMons 7 [mkMon 33 33 SPECIES_GEODUDE; mkMon 35 35 SPECIES_MACHOP; mkMon 29 29 SPECIES_GEODUDE; mkMon 31 31 SPECIES_GEODUDE; mkMon 31 31 SPECIES_MACHOP; mkMon 33 33 SPECIES_MACHOP; mkMon 35 35 SPECIES_GEODUDE; mkMon 37 37 SPECIES_MACHOP; mkMon 37 37 SPECIES_GEODUDE; mkMon 39 39 SPECIES_MACHOP; mkMon 37 37 SPECIES_GEODUDE; mkMon 39 39 SPECIES_MACHOP]))
     None
     None
     None;
   mkEnc "MAP_MT_EMBER_RUBY_PATH_1F" "sMtEmberRubyPath1F_LeafGreen"
     (Some (mkMons 7 [mkMon 36 36 SPECIES_GEODUDE; mkMon 38 38 SPECIES_MACHOP; mkMon 32 32 SPECIES_GEODUDE; mkMon 34 34 SPECIES_GEODUDE; mkMon 34 34 SPECIES_MACHOP; mkMon 36 36 SPECIES_MACHOP; mkMon 38 38 SPECIES_GEODUDE; mkMon 40 40 SPECIES_MACHOKE; mkMon 40 40 SPECIES_GEODUDE; mkMon 42 42 SPECIES_MACHOKE; mkMon 40 40 SPECIES_GEODUDE; mkMon 42 42 SPECIES_MACHOKE]))
     None
     (Some (mkMons 50 [mkMon 25 35 SPECIES_GEODUDE; mkMon 30 45 SPECIES_GRAVELER; mkMon 35 50 SPECIES_GRAVELER; mkMon 30 40 SPECIES_GEODUDE; mkMon 30 40 SPECIES_GEODUDE]))
     None;
   mkEnc "MAP_MT_EMBER_RUBY_PATH_B1F" "sMtEmberRubyPathB1F_LeafGreen"
     (Some (mkMons 7 [mkMon 38 38 SPECIES_GEODUDE; mkMon 36 36 SPECIES_GEODUDE; mkMon 34 34 SPECIES_GEODUDE; mkMon 40 40 SPECIES_GEODUDE; mkMon 24 24 SPECIES_SLUGMA; mkMon 26 26 SPECIES_SLUGMA; mkMon 42 42 SPECIES_GEODUDE; mkMon 28 28 SPECIES_SLUGMA; mkMon 42 42 SPECIES_GEODUDE; mkMon 30 30 SPECIES_SLUGMA; mkMon 42 42 SPECIES_GEODUDE; mkMon 30 30 SPECIES_SLUGMA]))
     None
     (Some (mkMons 50 [mkMon 25 35 SPECIES_GEODUDE; mkMon 30 45 SPECIES_GRAVELER; mkMon 35 50 SPECIES_GRAVELER; mkMon 30 40 SPECIES_GEODUDE; mkMon 30 40 SPECIES_GEODUDE]))
     None;
   mkEnc "MAP_MT_EMBER_RUBY_PATH_B2F" "sMtEmberRubyPathB2F_LeafGreen"
     (Some (mkMons 7 [mkMon 40 40 SPECIES_GEODUDE; mkMon 26 26 SPECIES_SLUGMA; mkMon 42 42 SPECIES_GEODUDE; mkMon 24 24 SPECIES_SLUGMA; mkMon 28 28 SPECIES_SLUGMA; mkMon 30 30 SPECIES_SLUGMA; mkMon 44 44 SPECIES_GEODUDE; mkMon 32 32 SPECIES_SLUGMA; mkMon 44 44 SPECIES_GEODUDE; mkMon 22 22 SPECIES_SLUGMA; mkMon 44 44 SPECIES_GEODUDE; mkMon 22 22 SPECIES_SLUGMA]))
     None
     (Some (mkMons 50 [mkMon 25 35 SPECIES_GEODUDE; mkMon 30 45 SPECIES_GRAVELER; mkMon 35 50 SPECIES_GRAVELER; mkMon 30 40 SPECIES_GEODUDE; mkMon 30 40 SPECIES_GEODUDE]))
     None;
   mkEnc "MAP_MT_EMBER_RUBY_PATH_B3F" "sMtEmberRubyPathB3F_LeafGreen"
     (Some (mkMons 7 [mkMon 26 26 SPECIES_SLUGMA; mkMon 28 28 SPECIES_SLUGMA; mkMon 30 30 SPECIES_SLUGMA; mkMon 32 32 SPECIES_SLUGMA; mkMon 24 24 SPECIES_SLUGMA; mkMon 22 22 SPECIES_SLUGMA; mkMon 20 20 SPECIES_SLUGMA; mkMon 34 34 SPECIES_SLUGMA; mkMon 36 36 SPECIES_SLUGMA; mkMon 18 18 SPECIES_SLUGMA; mkMon 36 36 SPECIES_SLUGMA; mkMon 18 18 SPECIES_SLUGMA]))
     None
     (Some (mkMons 50 [mkMon 15 25 SPECIES_SLUGMA; mkMon 25 35 SPECIES_SLUGMA; mkMon 40 45 SPECIES_MAGCARGO; mkMon 35 45 SPECIES_MAGCARGO; mkMon 25 35 SPECIES_MAGCARGO]))
     None;
   mkEnc "MAP_MT_EMBER_RUBY_PATH_B1F_STAIRS" "sMtEmberRubyPathB1FStairs_LeafGreen"
     (Some (mkMons 7 [mkMon 40 40 SPECIES_GEODUDE; mkMon 26 26 SPECIES_SLUGMA; mkMon 42 42 SPECIES_GEODUDE; mkMon 24 24 SPECIES_SLUGMA; mkMon 28 28 SPECIES_SLUGMA; mkMon 30 30 SPECIES_SLUGMA; mkMon 44 44 SPECIES_GEODUDE; mkMon 32 32 SPECIES_SLUGMA; mkMon 44 44 SPECIES_GEODUDE; mkMon 22 22 SPECIES_SLUGMA; mkMon 44 44 SPECIES_GEODUDE; mkMon 22 22 SPECIES_SLUGMA]))
     None
     (Some (mkMons 50 [mkMon 25 35 SPECIES_GEODUDE; mkMon 30 45 SPECIES_GRAVELER; mkMon 35 50 SPECIES_GRAVELER; mkMon 30 40 SPECIES_GEODUDE; mkMon 30 40 SPECIES_GEODUDE]))
     None;
   mkEnc "MAP_MT_EMBER_RUBY_PATH_B2F_STAIRS" "sMtEmberRubyPathB2FStairs_LeafGreen"
     (Some (mkMons 7 [mkMon 38 38 SPECIES_GEODUDE; mkMon 36 36 SPECIES_GEODUDE; mkMon 34 34 SPECIES_GEODUDE; mkMon 40 40 SPECIES_GEODUDE; mkMon 24 24 SPECIES_SLUGMA; mkMon 26 26 SPECIES_SLUGMA; mkMon 42 42 SPECIES_GEODUDE; mkMon 28 28 SPECIES_SLUGMA; mkMon 42 42 SPECIES_GEODUDE; mkMon 30 30 SPECIES_SLUGMA; mkMon 42 42 SPECIES_GEODUDE; mkMon 30 30 SPECIES_SLUGMA]))
     None
     (Some (mkMons 50 [mkMon 25 35 SPECIES_GEODUDE; mkMon 30 45 SPECIES_GRAVELER; mkMon 35 50 SPECIES_GRAVELER; mkMon 30 40 SPECIES_GEODUDE; mkMon 30 40 SPECIES_GEODUDE]))
     None;
   mkEnc "MAP_THREE_ISLAND_BERRY_FOREST" "sThreeIslandBerryForest_LeafGreen"
     (Some (mkMons 21 [mkMon 37 37 SPECIES_PIDGEOTTO; mkMon 35 35 SPECIES_WEEPINBELL; mkMon 32 32 SPECIES_PIDGEY; mkMon 30 30 SPECIES_BELLSPROUT; mkMon 34 34 SPECIES_VENONAT; mkMon 34 34 SPECIES_DROWZEE; mkMon 35 35 SPECIES_EXEGGCUTE; mkMon 31 31 SPECIES_SLOWPOKE; mkMon 37 37 SPECIES_VENOMOTH; mkMon 37 37 SPECIES_HYPNO; mkMon 40 40 SPECIES_VENOMOTH; mkMon 40 40 SPECIES_HYPNO]))
     (Some (mkMons 2 [mkMon 5 20 SPECIES_SLOWPOKE; mkMon 20 35 SPECIES_SLOWPOKE; mkMon 35 40 SPECIES_SLOWPOKE; mkMon 35 40 SPECIES_SLOWBRO; mkMon 35 40 SPECIES_SLOWBRO]))
     None
     (Some (mkMons 20 [mkMon 5 5 SPECIES_MAGIKARP; mkMon 5 5 SPECIES_MAGIKARP; mkMon 5 15 SPECIES_GOLDEEN; mkMon 5 15 SPECIES_MAGIKARP; mkMon 5 15 SPECIES_POLIWAG; mkMon 15 25 SPECIES_GOLDEEN; mkMon 20 30 SPECIES_SEAKING; mkMon 15 25 SPECIES_GYARADOS; mkMon 15 25 SPECIES_SLOWPOKE; mkMon 25 35 SPECIES_SLOWPOKE]));
   mkEnc "MAP_FOUR_ISLAND_ICEFALL_CAVE_ENTRANCE" "sFourIslandIcefallCaveEntrance_LeafGreen"
     (Some (mkMons 7 [mkMon 43 43 SPECIES_SEEL; mkMon 45 45 SPECIES_GOLBAT; mkMon 45 45 SPECIES_SEEL; mkMon 47 47 SPECIES_SEEL; mkMon 40 40 SPECIES_ZUBAT; mkMon 49 49 SPECIES_DEWGONG; mkMon 51 51 SPECIES_DEWGONG; mkMon 41 41 SPECIES_SLOWPOKE; mkMon 48 48 SPECIES_GOLBAT; mkMon 53 53 SPECIES_DEWGONG; mkMon 48 48 SPECIES_GOLBAT; mkMon 53 53 SPECIES_DEWGONG]))
     (Some (mkMons 2 [mkMon 5 35 SPECIES_SEEL; mkMon 5 35 SPECIES_SLOWPOKE; mkMon 35 40 SPECIES_DEWGONG; mkMon 5 15 SPECIES_MARILL; mkMon 5 15 SPECIES_MARILL]))
     None
     (Some (mkMons 20 [mkMon 5 5 SPECIES_MAGIKARP; mkMon 5 5 SPECIES_MAGIKARP; mkMon 5 15 SPECIES_POLIWAG; mkMon 5 15 SPECIES_MAGIKARP; mkMon 5 15 SPECIES_GOLDEEN; mkMon 15 25 SPECIES_POLIWAG; mkMon 20 30 SPECIES_POLIWHIRL; mkMon 15 25 SPECIES_GYARADOS; mkMon 15 25 SPECIES_SLOWPOKE; mkMon 25 35 SPECIES_SLOWPOKE]));
   mkEnc "MAP_FOUR_ISLAND_ICEFALL_CAVE_1F" "sFourIslandIcefallCave1F_LeafGreen"
     (Some (mkMons 7 [mkMon 25 25 SPECIES_SWINUB; mkMon 45 45 SPECIES_GOLBAT; mkMon 45 45 SPECIES_SEEL; mkMon 27 27 SPECIES_SWINUB; mkMon 40 40 SPECIES_ZUBAT; mkMon 29 29 SPECIES_SWINUB; mkMon 30 30 SPECIES_SNEASEL; mkMon 31 31 SPECIES_SWINUB; mkMon 48 48 SPECIES_GOLBAT; mkMon 23 23 SPECIES_SWINUB; mkMon 48 48 SPECIES_GOLBAT; mkMon 23 23 SPECIES_SWINUB]))
     None
     None
     None;
   mkEnc "MAP_FOUR_ISLAND_ICEFALL_CAVE_B1F" "sFourIslandIcefallCaveB1F_LeafGreen"
     (Some (mkMons 7 [mkMon 25 25 SPECIES_SWINUB; mkMon 45 45 SPECIES_GOLBAT; mkMon 45 45 SPECIES_SEEL; mkMon 27 27 SPECIES_SWINUB; mkMon 40 40 SPECIES_ZUBAT; mkMon 29 29 SPECIES_SWINUB; mkMon 30 30 SPECIES_SNEASEL; mkMon 31 31 SPECIES_SWINUB; mkMon 48 48 SPECIES_GOLBAT; mkMon 23 23 SPECIES_SWINUB; mkMon 48 48 SPECIES_GOLBAT; mkMon 23 23 SPECIES_SWINUB]))
     None
     None
     None;
   mkEnc "MAP_FOUR_ISLAND_ICEFALL_CAVE_BACK" "sFourIslandIcefallCaveBack_LeafGreen"
     (Some (mkMons 7 [mkMon 43 43 SPECIES_SEEL; mkMon 45 45 SPECIES_GOLBAT; mkMon 45 45 SPECIES_SEEL; mkMon 47 47 SPECIES_SEEL; mkMon 40 40 SPECIES_ZUBAT; mkMon 49 49 SPECIES_DEWGONG; mkMon 51 51 SPECIES_DEWGONG; mkMon 41 41 SPECIES_SLOWPOKE; mkMon 48 48 SPECIES_GOLBAT; mkMon 53 53 SPECIES_DEWGONG; mkMon 48 48 SPECIES_GOLBAT; mkMon 53 53 SPECIES_DEWGONG]))
     (Some (mkMons 2 [mkMon 5 20 SPECIES_TENTACOOL; mkMon 20 35 SPECIES_TENTACOOL; mkMon 35 45 SPECIES_TENTACOOL; mkMon 35 45 SPECIES_TENTACRUEL; mkMon 30 45 SPECIES_LAPRAS]))
     None
     (Some (mkMons 20 [mkMon 5 5 SPECIES_MAGIKARP; mkMon 5 5 SPECIES_MAGIKARP; mkMon 5 15 SPECIES_KRABBY; mkMon 5 15 SPECIES_MAGIKARP; mkMon 5 15 SPECIES_KRABBY; mkMon 15 25 SPECIES_KRABBY; mkMon 15 25 SPECIES_STARYU; mkMon 15 25 SPECIES_GYARADOS; mkMon 25 35 SPECIES_KINGLER; mkMon 25 35 SPECIES_SLOWPOKE]));
   mkEnc "MAP_SIX_ISLAND_PATTERN_BUSH" "sSixIslandPatternBush_LeafGreen"
     (Some (mkMons 21 [mkMon 9 9 SPECIES_LEDYBA; mkMon 9 9 SPECIES_KAKUNA; mkMon 14 14 SPECIES_LEDYBA; mkMon 6 6 SPECIES_CATERPIE; mkMon 6 6 SPECIES_WEEDLE; mkMon 15 15 SPECIES_HERACROSS; mkMon 9 9 SPECIES_METAPOD; mkMon 20 20 SPECIES_HERACROSS; mkMon 9 9 SPECIES_SPINARAK; mkMon 25 25 SPECIES_HERACROSS; mkMon 14 14 SPECIES_SPINARAK; mkMon 30 30 SPECIES_HERACROSS]))
     None
     None
     None;
   mkEnc "MAP_FIVE_ISLAND_LOST_CAVE_ROOM1" "sFiveIslandLostCaveRoom1_LeafGreen"
     (Some (mkMons 1 [mkMon 40 40 SPECIES_GASTLY; mkMon 37 37 SPECIES_ZUBAT; mkMon 44 44 SPECIES_HAUNTER; mkMon 46 46 SPECIES_HAUNTER; mkMon 41 41 SPECIES_GOLBAT; mkMon 43 43 SPECIES_GOLBAT; mkMon 38 38 SPECIES_GASTLY; mkMon 48 48 SPECIES_HAUNTER; mkMon 50 50 SPECIES_HAUNTER; mkMon 22 22 SPECIES_MISDREAVUS; mkMon 52 52 SPECIES_HAUNTER; mkMon 22 22 SPECIES_MISDREAVUS]))
     None
     None
     None;
   mkEnc "MAP_FIVE_ISLAND_LOST_CAVE_ROOM2" "sFiveIslandLostCaveRoom2_LeafGreen"
     (Some (mkMons 2 [mkMon 40 40 SPECIES_GASTLY; mkMon 37 37 SPECIES_ZUBAT; mkMon 44 44 SPECIES_HAUNTER; mkMon 46 46 SPECIES_HAUNTER; mkMon 41 41 SPECIES_GOLBAT; mkMon 43 43 SPECIES_GOLBAT; mkMon 38 38 SPECIES_GASTLY; mkMon 48 48 SPECIES_HAUNTER; mkMon 50 50 SPECIES_HAUNTER; mkMon 22 22 SPECIES_MISDREAVUS; mkMon 52 52 SPECIES_HAUNTER; mkMon 22 22 SPECIES_MISDREAVUS]))
     None
     None
     None;
   mkEnc "MAP_FIVE_ISLAND_LOST_CAVE_ROOM3" "sFiveIslandLostCaveRoom3_LeafGreen"
     (Some (mkMons 3 [mkMon 40 40 SPECIES_GASTLY; mkMon 37 37 SPECIES_ZUBAT; mkMon 44 44 SPECIES_HAUNTER; mkMon 46 46 SPECIES_HAUNTER; mkMon 41 41 SPECIES_GOLBAT; mkMon 43 43 SPECIES_GOLBAT; mkMon 38 38 SPECIES_GASTLY; mkMon 48 48 SPECIES_HAUNTER; mkMon 50 50 SPECIES_HAUNTER; mkMon 22 22 SPECIES_MISDREAVUS; mkMon 52 52 SPECIES_HAUNTER; mkMon 22 22 SPECIES_MISDREAVUS]))
     None
     None
     None;
   mkEnc "MAP_FIVE_ISLAND_LOST_CAVE_ROOM4" "sFiveIslandLostCaveRoom4_LeafGreen"
     (Some (mkMons 4 [mkMon 40 40 SPECIES_GASTLY; mkMon 37 37 SPECIES_ZUBAT; mkMon 44 44 SPECIES_HAUNTER; mkMon 46 46 SPECIES_HAUNTER; mkMon 41 41 SPECIES_GOLBAT; mkMon 43 43 SPECIES_GOLBAT; mkMon 38 38 SPECIES_GASTLY; mkMon 48 48 SPECIES_HAUNTER; mkMon 50 50 SPECIES_HAUNTER; mkMon 22 22 SPECIES_MISDREAVUS; mkMon 52 52 SPECIES_HAUNTER; mkMon 22 22 SPECIES_MISDREAVUS]))
     None
     None
     None;
   mkEnc "MAP_FIVE_ISLAND_LOST_CAVE_ROOM5" "sFiveIslandLostCaveRoom5_LeafGreen"
     (Some (mkMons 5 [mkMon 40 40 SPECIES_GASTLY; mkMon 37 37 SPECIES_ZUBAT; mkMon 44 44 SPECIES_HAUNTER; mkMon 46 46 SPECIES_HAUNTER; mkMon 41 41 SPECIES_GOLBAT; mkMon 43 43 SPECIES_GOLBAT; mkMon 38 38 SPECIES_GASTLY; mkMon 48 48 SPECIES_HAUNTER; mkMon 50 50 SPECIES_HAUNTER; mkMon 22 22 SPECIES_MISDREAVUS; mkMon 52 52 SPECIES_HAUNTER; mkMon 22 22 SPECIES_MISDREAVUS]))
     None
     None
     None;
   mkEnc "MAP_FIVE_ISLAND_LOST_CAVE_ROOM6" "sFiveIslandLostCaveRoom6_LeafGreen"
     (Some (mkMons 6 [mkMon 40 40 SPECIES_GASTLY; mkMon 37 37 SPECIES_ZUBAT; mkMon 44 44 SPECIES_HAUNTER; mkMon 46 46 SPECIES_HAUNTER; mkMon 41 41 SPECIES_GOLBAT; mkMon 43 43 SPECIES_GOLBAT; mkMon 38 38 SPECIES_GASTLY; mkMon 48 48 SPECIES_HAUNTER; mkMon 50 50 SPECIES_HAUNTER; mkMon 22 22 SPECIES_MISDREAVUS; mkMon 52 52 SPECIES_HAUNTER; mkMon 22 22 SPECIES_MISDREAVUS]))
     None
     None
     None;
   mkEnc "MAP_FIVE_ISLAND_LOST_CAVE_ROOM7" "sFiveIslandLostCaveRoom7_LeafGreen"
     (Some (mkMons 7 [mkMon 40 40 SPECIES_GASTLY; mkMon 37 37 SPECIES_ZUBAT; mkMon 44 44 SPECIES_HAUNTER; mkMon 46 46 SPECIES_HAUNTER; mkMon 41 41 SPECIES_GOLBAT; mkMon 43 43 SPECIES_GOLBAT; mkMon 38 38 SPECIES_GASTLY; mkMon 48 48 SPECIES_HAUNTER; mkMon 50 50 SPECIES_HAUNTER; mkMon 22 22 SPECIES_MISDREAVUS; mkMon 52 52 SPECIES_HAUNTER; mkMon 22 22 SPECIES_MISDREAVUS]))
     None
     None
     None;
   mkEnc "MAP_FIVE_ISLAND_LOST_CAVE_ROOM8" "sFiveIslandLostCaveRoom8_LeafGreen"
     (Some (mkMons 8 [mkMon 40 40 SPECIES_GASTLY; mkMon 37 37 SPECIES_ZUBAT; mkMon 44 44 SPECIES_HAUNTER; mkMon 46 46 SPECIES_HAUNTER; mkMon 41 41 SPECIES_GOLBAT; mkMon 43 43 SPECIES_GOLBAT; mkMon 38 38 SPECIES_GASTLY; mkMon 48 48 SPECIES_HAUNTER; mkMon 50 50 SPECIES_HAUNTER; mkMon 22 22 SPECIES_MISDREAVUS; mkMon 52 52 SPECIES_HAUNTER; mkMon 22 22 SPECIES_MISDREAVUS]))
     None
     None
     None;
   mkEnc "MAP_FIVE_ISLAND_LOST_CAVE_ROOM9" "sFiveIslandLostCaveRoom9_LeafGreen"
     (Some (mkMons 9 [mkMon 40 40 SPECIES_GASTLY; mkMon 37 37 SPECIES_ZUBAT; mkMon 44 44 SPECIES_HAUNTER; mkMon 46 46 SPECIES_HAUNTER; mkMon 41 41 SPECIES_GOLBAT; mkMon 43 43 SPECIES_GOLBAT; mkMon 38 38 SPECIES_GASTLY; mkMon 48 48 SPECIES_HAUNTER; mkMon 50 50 SPECIES_HAUNTER; mkMon 22 22 SPECIES_MISDREAVUS; mkMon 52 52 SPECIES_HAUNTER; mkMon 22 22 SPECIES_MISDREAVUS]))
     None
     None
     None;
   mkEnc "MAP_FIVE_ISLAND_LOST_CAVE_ROOM10" "sFiveIslandLostCaveRoom10_LeafGreen"
     (Some (mkMons 10 [mkMon 40 40 SPECIES_GASTLY; mkMon 37 37 SPECIES_ZUBAT; mkMon 44 44 SPECIES_HAUNTER; mkMon 46 46 SPECIES_HAUNTER; mkMon 41 41 SPECIES_GOLBAT; mkMon 43 43 SPECIES_GOLBAT; mkMon 38 38 SPECIES_GASTLY; mkMon 48 48 SPECIES_HAUNTER; mkMon 50 50 SPECIES_HAUNTER; mkMon 22 22 SPECIES_MISDREAVUS; mkMon 52 52 SPECIES_HAUNTER; mkMon 22 22 SPECIES_MISDREAVUS]))
     None
     None
     None;
   mkEnc "MAP_FIVE_ISLAND_LOST_CAVE_ROOM11" "sFiveIslandLostCaveRoom11_LeafGreen"
     (Some (mkMons 5 [mkMon 40 40 SPECIES_GASTLY; mkMon 37 37 SPECIES_ZUBAT; mkMon 44 44 SPECIES_HAUNTER; mkMon 46 46 SPECIES_HAUNTER; mkMon 41 41 SPECIES_GOLBAT; mkMon 15 15 SPECIES_MISDREAVUS; mkMon 20 20 SPECIES_MISDREAVUS; mkMon 48 48 SPECIES_HAUNTER; mkMon 50 50 SPECIES_HAUNTER; mkMon 22 22 SPECIES_MISDREAVUS; mkMon 52 52 SPECIES_HAUNTER; mkMon 22 22 SPECIES_MISDREAVUS]))
     None
     None
     None;
   mkEnc "MAP_FIVE_ISLAND_LOST_CAVE_ROOM12" "sFiveIslandLostCaveRoom12_LeafGreen"
     (Some (mkMons 5 [mkMon 40 40 SPECIES_GASTLY; mkMon 37 37 SPECIES_ZUBAT; mkMon 44 44 SPECIES_HAUNTER; mkMon 46 46 SPECIES_HAUNTER; mkMon 41 41 SPECIES_GOLBAT; mkMon 15 15 SPECIES_MISDREAVUS; mkMon 20 20 SPECIES_MISDREAVUS; mkMon 48 48 SPECIES_HAUNTER; mkMon 50 50 SPECIES_HAUNTER; mkMon 22 22 SPECIES_MISDREAVUS; mkMon 52 52 SPECIES_HAUNTER; mkMon 22 22 SPECIES_MISDREAVUS]))
     None
     None
     None;
   mkEnc "MAP_FIVE_ISLAND_LOST_CAVE_ROOM13" "sFiveIslandLostCaveRoom13_LeafGreen"
     (Some (mkMons 5 [mkMon 40 40 SPECIES_GASTLY; mkMon 37 37 SPECIES_ZUBAT; mkMon 44 44 SPECIES_HAUNTER; mkMon 46 46 SPECIES_HAUNTER; mkMon 41 41 SPECIES_GOLBAT; mkMon 15 15 SPECIES_MISDREAVUS; mkMon 20 20 SPECIES_MISDREAVUS; mkMon 48 48 SPECIES_HAUNTER; mkMon 50 50 SPECIES_HAUNTER; mkMon 22 22 SPECIES_MISDREAVUS; mkMon 52 52 SPECIES_HAUNTER; mkMon 22 22 SPECIES_MISDREAVUS]))
     None
     None
     None;
   mkEnc "MAP_FIVE_ISLAND_LOST_CAVE_ROOM14" "sFiveIslandLostCaveRoom14_LeafGreen"
     (Some (mkMons 5 [mkMon 40 40 SPECIES_GASTLY; mkMon 37 37 SPECIES_ZUBAT; mkMon 44 44 SPECIES_HAUNTER; mkMon 46 46 SPECIES_HAUNTER; mkMon 41 41 SPECIES_GOLBAT; mkMon 15 15 SPECIES_MISDREAVUS; mkMon 20 20 SPECIES_MISDREAVUS; mkMon 48 48 SPECIES_HAUNTER; mkMon 50 50 SPECIES_HAUNTER; mkMon 22 22 SPECIES_MISDREAVUS; mkMon 52 52 SPECIES_HAUNTER; mkMon 22 22 SPECIES_MISDREAVUS]))
     None
     None
     None;
   mkEnc "MAP_ONE_ISLAND_KINDLE_ROAD" "sOneIslandKindleRoad_LeafGreen"
     (Some (mkMons 21 [mkMon 32 32 SPECIES_SPEAROW; mkMon 34 34 SPECIES_PONYTA; mkMon 36 36 SPECIES_FEAROW; mkMon 31 31 SPECIES_PONYTA; mkMon 31 31 SPECIES_GEODUDE; mkMon 31 31 SPECIES_MEOWTH; mkMon 30 30 SPECIES_SPEAROW; mkMon 34 34 SPECIES_SLOWPOKE; mkMon 37 37 SPECIES_RAPIDASH; mkMon 37 37 SPECIES_PERSIAN; mkMon 40 40 SPECIES_RAPIDASH; mkMon 40 40 SPECIES_PERSIAN]))
     (Some (mkMons 2 [mkMon 5 20 SPECIES_TENTACOOL; mkMon 20 35 SPECIES_TENTACOOL; mkMon 35 40 SPECIES_TENTACOOL; mkMon 35 40 SPECIES_TENTACRUEL; mkMon 35 40 SPECIES_TENTACRUEL]))
     (Some (mkMons 25 [mkMon 5 20 SPECIES_GEODUDE; mkMon 10 20 SPECIES_GEODUDE; mkMon 15 30 SPECIES_GEODUDE; mkMon 25 40 SPECIES_GRAVELER; mkMon 30 40 SPECIES_GRAVELER]))
     (Some (mkMons 20 [mkMon 5 5 SPECIES_MAGIKARP; mkMon 5 5 SPECIES_MAGIKARP; mkMon 5 15 SPECIES_KRABBY; mkMon 5 15 SPECIES_MAGIKARP; mkMon 5 15 SPECIES_KRABBY; mkMon 15 25 SPECIES_KRABBY; mkMon 15 25 SPECIES_KRABBY; mkMon 15 25 SPECIES_GYARADOS; mkMon 25 35 SPECIES_KINGLER; mkMon 25 35 SPECIES_SLOWPOKE]));
   mkEnc "MAP_ONE_ISLAND_TREASURE_BEACH" "sOneIslandTreasureBeach_LeafGreen"
     (Some (mkMons 21 [mkMon 32 32 SPECIES_SPEAROW; mkMon 33 33 SPECIES_TANGELA; mkMon 31 31 SPECIES_SPEAROW; mkMon 35 35 SPECIES_TANGELA; mkMon 36 36 SPECIES_FEAROW; mkMon 31 31 SPECIES_MEOWTH; mkMon 38 38 SPECIES_FEAROW; mkMon 31 31 SPECIES_SLOWPOKE; mkMon 40 40 SPECIES_FEAROW; mkMon 37 37 SPECIES_PERSIAN; mkMon 40 40 SPECIES_FEAROW; mkMon 40 40 SPECIES_PERSIAN]))
     (Some (mkMons 2 [mkMon 5 20 SPECIES_TENTACOOL; mkMon 20 35 SPECIES_TENTACOOL; mkMon 35 40 SPECIES_TENTACOOL; mkMon 35 40 SPECIES_TENTACRUEL; mkMon 35 40 SPECIES_TENTACRUEL]))
     None
     (Some (mkMons 20 [mkMon 5 5 SPECIES_MAGIKARP; mkMon 5 5 SPECIES_MAGIKARP; mkMon 5 15 SPECIES_KRABBY; mkMon 5 15 SPECIES_MAGIKARP; mkMon 5 15 SPECIES_KRABBY; mkMon 15 25 SPECIES_KRABBY; mkMon 15 25 SPECIES_KRABBY; mkMon 15 25 SPECIES_GYARADOS; mkMon 25 35 SPECIES_KINGLER; mkMon 25 35 SPECIES_SLOWPOKE]));
   mkEnc "MAP_TWO_ISLAND_CAPE_BRINK" "sTwoIslandCapeBrink_LeafGreen"
     (Some (mkMons 21 [mkMon 31 31 SPECIES_SPEAROW; mkMon 30 30 SPECIES_BELLSPROUT; mkMon 32 32 SPECIES_BELLSPROUT; mkMon 36 36 SPECIES_WEEPINBELL; mkMon 36 36 SPECIES_FEAROW; mkMon 31 31 SPECIES_MEOWTH; mkMon 38 38 SPECIES_WEEPINBELL; mkMon 31 31 SPECIES_SLOWPOKE; mkMon 37 37 SPECIES_SLOWBRO; mkMon 37 37 SPECIES_PERSIAN; mkMon 40 40 SPECIES_SLOWBRO; mkMon 40 40 SPECIES_PERSIAN]))
     (Some (mkMons 2 [mkMon 5 20 SPECIES_SLOWPOKE; mkMon 20 35 SPECIES_SLOWPOKE; mkMon 35 40 SPECIES_SLOWPOKE; mkMon 35 40 SPECIES_SLOWBRO; mkMon 35 40 SPECIES_SLOWBRO]))
     None
     (Some (mkMons 20 [mkMon 5 5 SPECIES_MAGIKARP; mkMon 5 5 SPECIES_MAGIKARP; mkMon 5 15 SPECIES_POLIWAG; mkMon 5 15 SPECIES_MAGIKARP; mkMon 5 15 SPECIES_GOLDEEN; mkMon 15 25 SPECIES_POLIWAG; mkMon 20 30 SPECIES_POLIWHIRL; mkMon 15 25 SPECIES_GYARADOS; mkMon 15 25 SPECIES_SLOWPOKE; mkMon 25 35 SPECIES_SLOWPOKE]));
   mkEnc "MAP_THREE_ISLAND_BOND_BRIDGE" "sThreeIslandBondBridge_LeafGreen"
     (Some (mkMons 21 [mkMon 32 32 SPECIES_PIDGEY; mkMon 31 31 SPECIES_BELLSPROUT; mkMon 29 29 SPECIES_PIDGEY; mkMon 36 36 SPECIES_WEEPINBELL; mkMon 34 34 SPECIES_PIDGEOTTO; mkMon 31 31 SPECIES_MEOWTH; mkMon 34 34 SPECIES_VENONAT; mkMon 31 31 SPECIES_SLOWPOKE; mkMon 37 37 SPECIES_PIDGEOTTO; mkMon 37 37 SPECIES_PERSIAN; mkMon 40 40 SPECIES_PIDGEOTTO; mkMon 40 40 SPECIES_PERSIAN]))
     (Some (mkMons 2 [mkMon 5 20 SPECIES_TENTACOOL; mkMon 20 35 SPECIES_TENTACOOL; mkMon 35 40 SPECIES_TENTACOOL; mkMon 35 40 SPECIES_TENTACRUEL; mkMon 35 40 SPECIES_TENTACRUEL]))
     None
     (Some (mkMons 20 [mkMon 5 5 SPECIES_MAGIKARP; mkMon 5 5 SPECIES_MAGIKARP; mkMon 5 15 SPECIES_KRABBY; mkMon 5 15 SPECIES_MAGIKARP; mkMon 5 15 SPECIES_KRABBY; mkMon 15 25 SPECIES_KRABBY; mkMon 15 25 SPECIES_KRABBY; mkMon 15 25 SPECIES_GYARADOS; mkMon 25 35 SPECIES_KINGLER; mkMon 25 35 SPECIES_SLOWPOKE]));
   mkEnc "MAP_THREE_ISLAND_PORT" "sThreeIslandPort_LeafGreen"
     (Some (mkMons 1 [mkMon 15 15 SPECIES_DUNSPARCE; mkMon 15 15 SPECIES_DUNSPARCE; mkMon 10 10 SPECIES_DUNSPARCE; mkMon 10 10 SPECIES_DUNSPARCE; mkMon 20 20 SPECIES_DUNSPARCE; mkMon 20 20 SPECIES_DUNSPARCE; mkMon 25 25 SPECIES_DUNSPARCE; mkMon 30 30 SPECIES_DUNSPARCE; mkMon 25 25 SPECIES_DUNSPARCE; mkMon 30 30 SPECIES_DUNSPARCE; mkMon 5 5 SPECIES_DUNSPARCE; mkMon 35 35 SPECIES_DUNSPARCE]))
     None
     None
     None;
   mkEnc "MAP_FIVE_ISLAND_RESORT_GORGEOUS" "sFiveIslandResortGorgeous_LeafGreen"
     None
     (Some (mkMons 2 [mkMon 5 35 SPECIES_TENTACOOL; mkMon 5 15 SPECIES_HOPPIP; mkMon 35 40 SPECIES_TENTACOOL; mkMon 35 40 SPECIES_TENTACRUEL; mkMon 35 40 SPECIES_TENTACRUEL]))
     None
     (Some (mkMons 20 [mkMon 5 5 SPECIES_MAGIKARP; mkMon 5 5 SPECIES_MAGIKARP; mkMon 5 15 SPECIES_KRABBY; mkMon 5 15 SPECIES_MAGIKARP; mkMon 5 15 SPECIES_KRABBY; mkMon 15 25 SPECIES_KRABBY; mkMon 15 25 SPECIES_REMORAID; mkMon 15 25 SPECIES_GYARADOS; mkMon 25 35 SPECIES_KINGLER; mkMon 25 35 SPECIES_SLOWPOKE]));
   mkEnc "MAP_FIVE_ISLAND_WATER_LABYRINTH" "sFiveIslandWaterLabyrinth_LeafGreen"
     None
     (Some (mkMons 2 [mkMon 5 35 SPECIES_TENTACOOL; mkMon 5 15 SPECIES_HOPPIP; mkMon 35 40 SPECIES_TENTACOOL; mkMon 35 40 SPECIES_TENTACRUEL; mkMon 35 40 SPECIES_TENTACRUEL]))
     None
     (Some (mkMons 20 [mkMon 5 5 SPECIES_MAGIKARP; mkMon 5 5 SPECIES_MAGIKARP; mkMon 5 15 SPECIES_KRABBY; mkMon 5 15 SPECIES_MAGIKARP; mkMon 5 15 SPECIES_KRABBY; mkMon 15 25 SPECIES_KRABBY; mkMon 15 25 SPECIES_REMORAID; mkMon 15 25 SPECIES_GYARADOS; mkMon 25 35 SPECIES_KINGLER; mkMon 25 35 SPECIES_SLOWPOKE]));
   mkEnc "MAP_FIVE_ISLAND_MEADOW" "sFiveIslandMeadow_LeafGreen"
     (Some (mkMons 21 [mkMon 44 44 SPECIES_PIDGEY; mkMon 10 10 SPECIES_SENTRET; mkMon 48 48 SPECIES_PIDGEOTTO; mkMon 10 10 SPECIES_HOPPIP; mkMon 15 15 SPECIES_SENTRET; mkMon 41 41 SPECIES_MEOWTH; mkMon 15 15 SPECIES_HOPPIP; mkMon 41 41 SPECIES_SLOWPOKE; mkMon 50 50 SPECIES_PIDGEOTTO; mkMon 47 47 SPECIES_PERSIAN; mkMon 50 50 SPECIES_PIDGEOTTO; mkMon 50 50 SPECIES_PERSIAN]))
     (Some (mkMons 2 [mkMon 5 35 SPECIES_TENTACOOL; mkMon 5 15 SPECIES_HOPPIP; mkMon 35 40 SPECIES_TENTACOOL; mkMon 35 40 SPECIES_TENTACRUEL; mkMon 35 40 SPECIES_TENTACRUEL]))
     None
     (Some (mkMons 20 [mkMon 5 5 SPECIES_MAGIKARP; mkMon 5 5 SPECIES_MAGIKARP; mkMon 5 15 SPECIES_KRABBY; mkMon 5 15 SPECIES_MAGIKARP; mkMon 5 15 SPECIES_KRABBY; mkMon 15 25 SPECIES_KRABBY; mkMon 15 25 SPECIES_REMORAID; mkMon 15 25 SPECIES_GYARADOS; mkMon 25 35 SPECIES_KINGLER; mkMon 25 35 SPECIES_SLOWPOKE]));
   mkEnc "MAP_FIVE_ISLAND_MEMORIAL_PILLAR" "sFiveIslandMemorialPillar_LeafGreen"
     (Some (mkMons 21 [mkMon 10 10 SPECIES_HOPPIP; mkMon 12 12 SPECIES_HOPPIP; mkMon 8 8 SPECIES_HOPPIP; mkMon 14 14 SPECIES_HOPPIP; mkMon 10 10 SPECIES_HOPPIP; mkMon 12 12 SPECIES_HOPPIP; mkMon 16 16 SPECIES_HOPPIP; mkMon 6 6 SPECIES_HOPPIP; mkMon 8 8 SPECIES_HOPPIP; mkMon 14 14 SPECIES_HOPPIP; mkMon 8 8 SPECIES_HOPPIP; mkMon 14 14 SPECIES_HOPPIP]))
     (Some (mkMons 2 [mkMon 5 35 SPECIES_TENTACOOL; mkMon 5 15 SPECIES_HOPPIP; mkMon 35 40 SPECIES_TENTACOOL; mkMon 35 40 SPECIES_TENTACRUEL; mkMon 35 40 SPECIES_TENTACRUEL]))
     None
     (Some (mkMons 20 [mkMon 5 5 SPECIES_MAGIKARP; mkMon 5 5 SPECIES_MAGIKARP; mkMon 5 15 SPECIES_KRABBY; mkMon 5 15 SPECIES_MAGIKARP; mkMon 5 15 SPECIES_KRABBY; mkMon 15 25 SPECIES_KRABBY; mkMon 15 25 SPECIES_REMORAID; mkMon 15 25 SPECIES_GYARADOS; mkMon 25 35 SPECIES_KINGLER; mkMon 25 35 SPECIES_SLOWPOKE]));
   mkEnc "MAP_SIX_ISLAND_OUTCAST_ISLAND" "sSixIslandOutcastIsland_LeafGreen"
     None
     (Some (mkMons 2 [mkMon 5 20 SPECIES_TENTACOOL; mkMon 20 35 SPECIES_TENTACOOL; mkMon 35 40 SPECIES_TENTACOOL; mkMon 35 40 SPECIES_TENTACRUEL; mkMon 35 40 SPECIES_TENTACRUEL]))
     None
     (Some (mkMons 20 [mkMon 5 5 SPECIES_MAGIKARP; mkMon 5 5 SPECIES_MAGIKARP; mkMon 5 15 SPECIES_KRABBY; mkMon 5 15 SPECIES_MAGIKARP; mkMon 5 15 SPECIES_KRABBY; mkMon 15 25 SPECIES_KRABBY; mkMon 15 25 SPECIES_REMORAID; mkMon 15 25 SPECIES_GYARADOS; mkMon 25 35 SPECIES_KINGLER; mkMon 25 35 SPECIES_SLOWPOKE]));
   mkEnc "MAP_SIX_ISLAND_GREEN_PATH" "sSixIslandGreenPath_LeafGreen"
     None
     (Some (mkMons 2 [mkMon 5 20 SPECIES_TENTACOOL; mkMon 20 35 SPECIES_TENTACOOL; mkMon 35 40 SPECIES_TENTACOOL; mkMon 35 40 SPECIES_TENTACRUEL; mkMon 35 40 SPECIES_TENTACRUEL]))
     None
     (Some (mkMons 20 [mkMon 5 5 SPECIES_MAGIKARP; mkMon 5 5 SPECIES_MAGIKARP; mkMon 5 15 SPECIES_KRABBY; mkMon 5 15 SPECIES_MAGIKARP; mkMon 5 15 SPECIES_KRABBY; mkMon 15 25 SPECIES_KRABBY; mkMon 15 25 SPECIES_REMORAID; mkMon 15 25 SPECIES_GYARADOS; mkMon 25 35 SPECIES_KINGLER; mkMon 25 35 SPECIES_SLOWPOKE]));
   mkEnc "MAP_SIX_ISLAND_WATER_PATH" "sSixIslandWaterPath_LeafGreen"
     (Some (mkMons 21 [mkMon 44 44 SPECIES_SPEAROW; mkMon 10 10 SPECIES_SENTRET; mkMon 44 44 SPECIES_BELLSPROUT; mkMon 48 48 SPECIES_FEAROW; mkMon 15 15 SPECIES_SENTRET; mkMon 41 41 SPECIES_MEOWTH; mkMon 48 48 SPECIES_WEEPINBELL; mkMon 41 41 SPECIES_SLOWPOKE; mkMon 50 50 SPECIES_FEAROW; mkMon 47 47 SPECIES_PERSIAN; mkMon 50 50 SPECIES_FEAROW; mkMon 50 50 SPECIES_PERSIAN]))
     (Some (mkMons 2 [mkMon 5 20 SPECIES_TENTACOOL; mkMon 20 35 SPECIES_TENTACOOL; mkMon 35 40 SPECIES_TENTACOOL; mkMon 35 40 SPECIES_TENTACRUEL; mkMon 35 40 SPECIES_TENTACRUEL]))
     None
     (Some (mkMons 20 [mkMon 5 5 SPECIES_MAGIKARP; mkMon 5 5 SPECIES_MAGIKARP; mkMon 5 15 SPECIES_KRABBY; mkMon 5 15 SPECIES_MAGIKARP; mkMon 5 15 SPECIES_KRABBY; mkMon 15 25 SPECIES_KRABBY; mkMon 15 25 SPECIES_REMORAID; mkMon 15 25 SPECIES_GYARADOS; mkMon 25 35 SPECIES_KINGLER; mkMon 25 35 SPECIES_SLOWPOKE]));
   mkEnc "MAP_SIX_ISLAND_RUIN_VALLEY" "sSixIslandRuinValley_LeafGreen"
     (Some (mkMons 21 [mkMon 15 15 SPECIES_NATU; mkMon 44 44 SPECIES_SPEAROW; mkMon 18 18 SPECIES_YANMA; mkMon 15 15 SPECIES_MARILL; mkMon 49 49 SPECIES_FEAROW; mkMon 43 43 SPECIES_MEOWTH; mkMon 25 25 SPECIES_WOBBUFFET; mkMon 41 41 SPECIES_SLOWPOKE; mkMon 20 20 SPECIES_NATU; mkMon 49 49 SPECIES_PERSIAN; mkMon 20 20 SPECIES_NATU; mkMon 52 52 SPECIES_PERSIAN]))
     (Some (mkMons 2 [mkMon 5 20 SPECIES_MARILL; mkMon 10 20 SPECIES_MARILL; mkMon 15 25 SPECIES_MARILL; mkMon 20 25 SPECIES_MARILL; mkMon 20 25 SPECIES_MARILL]))
     None
     (Some (mkMons 20 [mkMon 5 5 SPECIES_MAGIKARP; mkMon 5 5 SPECIES_MAGIKARP; mkMon 5 15 SPECIES_POLIWAG; mkMon 5 15 SPECIES_MAGIKARP; mkMon 5 15 SPECIES_GOLDEEN; mkMon 15 25 SPECIES_POLIWAG; mkMon 20 30 SPECIES_POLIWHIRL; mkMon 15 25 SPECIES_GYARADOS; mkMon 15 25 SPECIES_SLOWPOKE; mkMon 25 35 SPECIES_SLOWPOKE]));
   mkEnc "MAP_SEVEN_ISLAND_TRAINER_TOWER" "sSevenIslandTrainerTower_LeafGreen"
     None
     (Some (mkMons 2 [mkMon 5 20 SPECIES_TENTACOOL; mkMon 20 35 SPECIES_TENTACOOL; mkMon 35 40 SPECIES_MANTINE; mkMon 35 40 SPECIES_TENTACRUEL; mkMon 35 40 SPECIES_TENTACRUEL]))
     None
     (Some (mkMons 20 [mkMon 5 5 SPECIES_MAGIKARP; mkMon 5 5 SPECIES_MAGIKARP; mkMon 5 15 SPECIES_KRABBY; mkMon 5 15 SPECIES_MAGIKARP; mkMon 5 15 SPECIES_KRABBY; mkMon 15 25 SPECIES_KRABBY; mkMon 15 25 SPECIES_REMORAID; mkMon 15 25 SPECIES_GYARADOS; mkMon 25 35 SPECIES_KINGLER; mkMon 25 35 SPECIES_SLOWPOKE]));
   mkEnc "MAP_SEVEN_ISLAND_SEVAULT_CANYON_ENTRANCE" "sSevenIslandSevaultCanyonEntrance_LeafGreen"
     (Some (mkMons 21 [mkMon 44 44 SPECIES_SPEAROW; mkMon 10 10 SPECIES_SENTRET; mkMon 10 10 SPECIES_PHANPY; mkMon 48 48 SPECIES_FEAROW; mkMon 15 15 SPECIES_SENTRET; mkMon 41 41 SPECIES_MEOWTH; mkMon 50 50 SPECIES_FEAROW; mkMon 41 41 SPECIES_SLOWPOKE; mkMon 15 15 SPECIES_PHANPY; mkMon 47 47 SPECIES_PERSIAN; mkMon 15 15 SPECIES_PHANPY; mkMon 50 50 SPECIES_PERSIAN]))
     None
     None
     None;
   mkEnc "MAP_SEVEN_ISLAND_SEVAULT_CANYON" "sSevenIslandSevaultCanyon_LeafGreen"
     (Some (mkMons 21 [mkMon 46 46 SPECIES_GEODUDE; mkMon 15 15 SPECIES_PHANPY; mkMon 46 46 SPECIES_CUBONE; mkMon 50 50 SPECIES_FEAROW; mkMon 52 52 SPECIES_MAROWAK; mkMon 43 43 SPECIES_MEOWTH; mkMon 54 54 SPECIES_ONIX; mkMon 50 50 SPECIES_FEAROW; mkMon 15 15 SPECIES_LARVITAR; mkMon 49 49 SPECIES_PERSIAN; mkMon 20 20 SPECIES_LARVITAR; mkMon 52 52 SPECIES_PERSIAN]))
     None
     (Some (mkMons 25 [mkMon 25 35 SPECIES_GEODUDE; mkMon 30 45 SPECIES_GRAVELER; mkMon 35 50 SPECIES_GRAVELER; mkMon 30 40 SPECIES_GEODUDE; mkMon 30 40 SPECIES_GEODUDE]))
     None;
   mkEnc "MAP_SEVEN_ISLAND_TANOBY_RUINS" "sSevenIslandTanobyRuins_LeafGreen"
     None
     (Some (mkMons 2 [mkMon 5 20 SPECIES_TENTACOOL; mkMon 20 35 SPECIES_TENTACOOL; mkMon 35 40 SPECIES_MANTINE; mkMon 35 40 SPECIES_TENTACRUEL; mkMon 35 40 SPECIES_TENTACRUEL]))
     None
     (Some (mkMons 20 [mkMon 5 5 SPECIES_MAGIKARP; mkMon 5 5 SPECIES_MAGIKARP; mkMon 5 15 SPECIES_KRABBY; mkMon 5 15 SPECIES_MAGIKARP; mkMon 5 15 SPECIES_KRABBY; mkMon 15 25 SPECIES_KRABBY; mkMon 15 25 SPECIES_REMORAID; mkMon 15 25 SPECIES_GYARADOS; mkMon 25 35 SPECIES_KINGLER; mkMon 25 35 SPECIES_SLOWPOKE]));
   mkEnc "MAP_ROUTE1" "sRoute1_LeafGreen"
     (Some (mkMons 21 [mkMon 3 3 SPECIES_PIDGEY; mkMon 3 3 SPECIES_RATTATA; mkMon 3 3 SPECIES_PIDGEY; mkMon 3 3 SPECIES_RATTATA; mkMon 2 2 SPECIES_PIDGEY; mkMon 2 2 SPECIES_RATTATA; mkMon 3 3 SPECIES_PIDGEY; mkMon 3 3 SPECIES_RATTATA; mkMon 4 4 SPECIES_PIDGEY; mkMon 4 4 SPECIES_RATTATA; mkMon 5 5 SPECIES_PIDGEY; mkMon 4 4 SPECIES_RATTATA]))
     None
     None
     None;
   mkEnc "MAP_ROUTE2" "sRoute2_LeafGreen"
     (Some (mkMons 21 [mkMon 3 3 SPECIES_RATTATA; mkMon 3 3 SPECIES_PIDGEY; mkMon 4 4 SPECIES_RATTATA; mkMon 4 4 SPECIES_PIDGEY; mkMon 2 2 SPECIES_RATTATA; mkMon 2 2 SPECIES_PIDGEY; mkMon 5 5 SPECIES_RATTATA; mkMon 5 5 SPECIES_PIDGEY; mkMon 4 4 SPECIES_CATERPIE; mkMon 4 4 SPECIES_WEEDLE; mkMon 5 5 SPECIES_CATERPIE; mkMon 5 5 SPECIES_WEEDLE]))
     None
     None
     None;
   mkEnc "MAP_ROUTE3" "sRoute3_LeafGreen"
     (Some (mkMons 21 [mkMon 6 6 SPECIES_SPEAROW; mkMon 6 6 SPECIES_PIDGEY; mkMon 7 7 SPECIES_SPEAROW; mkMon 7 7 SPECIES_MANKEY; mkMon 6 6 SPECIES_NIDORAN_F; mkMon 7 7 SPECIES_PIDGEY; mkMon 8 8 SPECIES_SPEAROW; mkMon 3 3 SPECIES_JIGGLYPUFF; mkMon 7 7 SPECIES_NIDORAN_F; mkMon 5 5 SPECIES_JIGGLYPUFF; mkMon 6 6 SPECIES_NIDORAN_M; mkMon 7 7 SPECIES_JIGGLYPUFF]))
     None
     None
     None;
   mkEnc "MAP_ROUTE4" "sRoute4_LeafGreen"
     (Some (mkMons 21 [mkMon 10 10 SPECIES_SPEAROW; mkMon 10 10 SPECIES_RATTATA; mkMon 6 6 SPECIES_SANDSHREW; mkMon 10 10 SPECIES_SANDSHREW; mkMon 8 8 SPECIES_SPEAROW; mkMon 8 8 SPECIES_RATTATA; mkMon 12 12 SPECIES_SPEAROW; mkMon 12 12 SPECIES_RATTATA; mkMon 10 10 SPECIES_MANKEY; mkMon 8 8 SPECIES_SANDSHREW; mkMon 12 12 SPECIES_MANKEY; mkMon 12 12 SPECIES_SANDSHREW]))
     (Some (mkMons 2 [mkMon 5 10 SPECIES_TENTACOOL; mkMon 10 20 SPECIES_TENTACOOL; mkMon 20 30 SPECIES_TENTACOOL; mkMon 30 35 SPECIES_TENTACOOL; mkMon 35 40 SPECIES_TENTACOOL]))
     None
     (Some (mkMons 20 [mkMon 5 5 SPECIES_MAGIKARP; mkMon 5 5 SPECIES_MAGIKARP; mkMon 5 15 SPECIES_KRABBY; mkMon 5 15 SPECIES_MAGIKARP; mkMon 5 15 SPECIES_HORSEA; mkMon 15 25 SPECIES_KRABBY; mkMon 15 25 SPECIES_KRABBY; mkMon 15 25 SPECIES_GYARADOS; mkMon 25 35 SPECIES_KRABBY; mkMon 25 35 SPECIES_SLOWPOKE]));
   mkEnc "MAP_ROUTE5" "sRoute5_LeafGreen"
     (Some (mkMons 21 [mkMon 10 10 SPECIES_MEOWTH; mkMon 13 13 SPECIES_PIDGEY; mkMon 13 13 SPECIES_BELLSPROUT; mkMon 12 12 SPECIES_MEOWTH; mkMon 15 15 SPECIES_BELLSPROUT; mkMon 15 15 SPECIES_PIDGEY; mkMon 16 16 SPECIES_BELLSPROUT; mkMon 16 16 SPECIES_PIDGEY; mkMon 15 15 SPECIES_PIDGEY; mkMon 14 14 SPECIES_MEOWTH; mkMon 15 15 SPECIES_PIDGEY; mkMon 16 16 SPECIES_MEOWTH]))
     None
     None
     None;
   mkEnc "MAP_ROUTE6" "sRoute6_LeafGreen"
     (Some (mkMons 21 [mkMon 10 10 SPECIES_MEOWTH; mkMon 13 13 SPECIES_PIDGEY; mkMon 13 13 SPECIES_BELLSPROUT; mkMon 12 12 SPECIES_MEOWTH; mkMon 15 15 SPECIES_BELLSPROUT; mkMon 15 15 SPECIES_PIDGEY; mkMon 16 16 SPECIES_BELLSPROUT; mkMon 16 16 SPECIES_PIDGEY; mkMon 15 15 SPECIES_PIDGEY; mkMon 14 14 SPECIES_MEOWTH; mkMon 15 15 SPECIES_PIDGEY; mkMon 16 16 SPECIES_MEOWTH]))
     (Some (mkMons 2 [mkMon 20 25 SPECIES_SLOWPOKE; mkMon 20 25 SPECIES_SLOWPOKE; mkMon 25 30 SPECIES_SLOWPOKE; mkMon 30 35 SPECIES_SLOWPOKE; mkMon 35 40 SPECIES_SLOWPOKE]))
     None
     (Some (mkMons 20 [mkMon 5 5 SPECIES_MAGIKARP; mkMon 5 5 SPECIES_MAGIKARP; mkMon 5 15 SPECIES_POLIWAG; mkMon 5 15 SPECIES_MAGIKARP; mkMon 5 15 SPECIES_GOLDEEN; mkMon 15 25 SPECIES_POLIWAG; mkMon 20 30 SPECIES_POLIWHIRL; mkMon 15 25 SPECIES_GYARADOS; mkMon 15 25 SPECIES_SLOWPOKE; mkMon 25 35 SPECIES_SLOWPOKE]));
   mkEnc "MAP_ROUTE7" "sRoute7_LeafGreen"
     (Some (mkMons 21 [mkMon 19 19 SPECIES_PIDGEY; mkMon 17 17 SPECIES_MEOWTH; mkMon 19 19 SPECIES_BELLSPROUT; mkMon 18 18 SPECIES_MEOWTH; mkMon 22 22 SPECIES_PIDGEY; mkMon 22 22 SPECIES_BELLSPROUT; mkMon 18 18 SPECIES_VULPIX; mkMon 20 20 SPECIES_VULPIX; mkMon 17 17 SPECIES_MEOWTH; mkMon 19 19 SPECIES_MEOWTH; mkMon 17 17 SPECIES_MEOWTH; mkMon 20 20 SPECIES_MEOWTH]))
     None
     None
     None;
   mkEnc "MAP_ROUTE8" "sRoute8_LeafGreen"
     (Some (mkMons 21 [mkMon 18 18 SPECIES_PIDGEY; mkMon 18 18 SPECIES_MEOWTH; mkMon 16 16 SPECIES_VULPIX; mkMon 20 20 SPECIES_PIDGEY; mkMon 20 20 SPECIES_MEOWTH; mkMon 17 17 SPECIES_SANDSHREW; mkMon 17 17 SPECIES_VULPIX; mkMon 19 19 SPECIES_SANDSHREW; mkMon 17 17 SPECIES_SANDSHREW; mkMon 15 15 SPECIES_VULPIX; mkMon 17 17 SPECIES_SANDSHREW; mkMon 18 18 SPECIES_VULPIX]))
     None
     None
     None;
   mkEnc "MAP_ROUTE9" "sRoute9_LeafGreen"
     (Some (mkMons 21 [mkMon 16 16 SPECIES_SPEAROW; mkMon 16 16 SPECIES_RATTATA; mkMon 11 11 SPECIES_SANDSHREW; mkMon 15 15 SPECIES_SANDSHREW; mkMon 13 13 SPECIES_SPEAROW; mkMon 14 14 SPECIES_RATTATA; mkMon 17 17 SPECIES_SPEAROW; mkMon 17 17 SPECIES_RATTATA; mkMon 14 14 SPECIES_RATTATA; mkMon 13 13 SPECIES_SANDSHREW; mkMon 14 14 SPECIES_RATTATA; mkMon 17 17 SPECIES_SANDSHREW]))
     None
     None
     None;
   mkEnc "MAP_ROUTE10" "sRoute10_LeafGreen"
     (Some (mkMons 21 [mkMon 16 16 SPECIES_SPEAROW; mkMon 16 16 SPECIES_VOLTORB; mkMon 11 11 SPECIES_SANDSHREW; mkMon 15 15 SPECIES_SANDSHREW; mkMon 13 13 SPECIES_SPEAROW; mkMon 14 14 SPECIES_VOLTORB; mkMon 17 17 SPECIES_SPEAROW; mkMon 17 17 SPECIES_VOLTORB; mkMon 14 14 SPECIES_VOLTORB; mkMon 13 13 SPECIES_SANDSHREW; mkMon 14 14 SPECIES_VOLTORB; mkMon 17 17 SPECIES_SANDSHREW]))
     (Some (mkMons 2 [mkMon 5 10 SPECIES_TENTACOOL; mkMon 10 20 SPECIES_TENTACOOL; mkMon 20 30 SPECIES_TENTACOOL; mkMon 30 35 SPECIES_TENTACOOL; mkMon 35 40 SPECIES_TENTACOOL]))
     None
     (Some (mkMons 20 [mkMon 5 5 SPECIES_MAGIKARP; mkMon 5 5 SPECIES_MAGIKARP; mkMon 5 15 SPECIES_KRABBY; mkMon 5 15 SPECIES_MAGIKARP; mkMon 5 15 SPECIES_HORSEA; mkMon 15 25 SPECIES_KRABBY; mkMon 15 25 SPECIES_KRABBY; mkMon 15 25 SPECIES_GYARADOS; mkMon 25 35 SPECIES_KRABBY; mkMon 25 35 SPECIES_SLOWPOKE]));
   mkEnc "MAP_ROUTE11" "sRoute11_LeafGreen"
     (Some (mkMons 21 [mkMon 14 14 SPECIES_SANDSHREW; mkMon 15 15 SPECIES_SPEAROW; mkMon 12 12 SPECIES_SANDSHREW; mkMon 13 13 SPECIES_SPEAROW; mkMon 11 11 SPECIES_DROWZEE; mkMon 13 13 SPECIES_DROWZEE; mkMon 15 15 SPECIES_SANDSHREW; mkMon 17 17 SPECIES_SPEAROW; mkMon 12 12 SPECIES_SANDSHREW; mkMon 15 15 SPECIES_DROWZEE; mkMon 12 12 SPECIES_SANDSHREW; mkMon 15 15 SPECIES_DROWZEE]))
     (Some (mkMons 2 [mkMon 5 10 SPECIES_TENTACOOL; mkMon 10 20 SPECIES_TENTACOOL; mkMon 20 30 SPECIES_TENTACOOL; mkMon 30 35 SPECIES_TENTACOOL; mkMon 35 40 SPECIES_TENTACOOL]))
     None
     (Some (mkMons 20 [mkMon 5 5 SPECIES_MAGIKARP; mkMon 5 5 SPECIES_MAGIKARP; mkMon 5 15 SPECIES_KRABBY; mkMon 5 15 SPECIES_MAGIKARP; mkMon 5 15 SPECIES_HORSEA; mkMon 15 25 SPECIES_KRABBY; mkMon 15 25 SPECIES_KRABBY; mkMon 15 25 SPECIES_GYARADOS; mkMon 25 35 SPECIES_KRABBY; mkMon 25 35 SPECIES_SLOWPOKE]));
   mkEnc "MAP_ROUTE12" "sRoute12_LeafGreen"
     (Some (mkMons 21 [mkMon 24 24 SPECIES_BELLSPROUT; mkMon 24 24 SPECIES_VENONAT; mkMon 22 22 SPECIES_BELLSPROUT; mkMon 23 23 SPECIES_PIDGEY; mkMon 25 25 SPECIES_PIDGEY; mkMon 26 26 SPECIES_VENONAT; mkMon 26 26 SPECIES_BELLSPROUT; mkMon 27 27 SPECIES_PIDGEY; mkMon 23 23 SPECIES_PIDGEY; mkMon 28 28 SPECIES_WEEPINBELL; mkMon 23 23 SPECIES_PIDGEY; mkMon 30 30 SPECIES_WEEPINBELL]))
     (Some (mkMons 2 [mkMon 5 10 SPECIES_TENTACOOL; mkMon 10 20 SPECIES_TENTACOOL; mkMon 20 30 SPECIES_TENTACOOL; mkMon 30 35 SPECIES_TENTACOOL; mkMon 35 40 SPECIES_TENTACOOL]))
     None
     (Some (mkMons 60 [mkMon 5 5 SPECIES_MAGIKARP; mkMon 5 5 SPECIES_MAGIKARP; mkMon 5 15 SPECIES_KRABBY; mkMon 5 15 SPECIES_MAGIKARP; mkMon 5 15 SPECIES_HORSEA; mkMon 15 25 SPECIES_KRABBY; mkMon 15 25 SPECIES_KRABBY; mkMon 15 25 SPECIES_GYARADOS; mkMon 25 35 SPECIES_KRABBY; mkMon 25 35 SPECIES_SLOWPOKE]));
   mkEnc "MAP_ROUTE13" "sRoute13_LeafGreen"
     (Some (mkMons 21 [mkMon 24 24 SPECIES_BELLSPROUT; mkMon 24 24 SPECIES_VENONAT; mkMon 22 22 SPECIES_BELLSPROUT; mkMon 27 27 SPECIES_PIDGEY; mkMon 25 25 SPECIES_PIDGEY; mkMon 26 26 SPECIES_VENONAT; mkMon 26 26 SPECIES_BELLSPROUT; mkMon 25 25 SPECIES_DITTO; mkMon 29 29 SPECIES_PIDGEOTTO; mkMon 28 28 SPECIES_WEEPINBELL; mkMon 29 29 SPECIES_PIDGEOTTO; mkMon 30 30 SPECIES_WEEPINBELL]))
     (Some (mkMons 2 [mkMon 5 10 SPECIES_TENTACOOL; mkMon 10 20 SPECIES_TENTACOOL; mkMon 20 30 SPECIES_TENTACOOL; mkMon 30 35 SPECIES_TENTACOOL; mkMon 35 40 SPECIES_TENTACOOL]))
     None
     (Some (mkMons 20 [mkMon 5 5 SPECIES_MAGIKARP; mkMon 5 5 SPECIES_MAGIKARP; mkMon 5 15 SPECIES_KRABBY; mkMon 5 15 SPECIES_MAGIKARP; mkMon 5 15 SPECIES_HORSEA; mkMon 15 25 SPECIES_KRABBY; mkMon 15 25 SPECIES_KRABBY; mkMon 15 25 SPECIES_GYARADOS; mkMon 25 35 SPECIES_KRABBY; mkMon 25 35 SPECIES_SLOWPOKE]));
   mkEnc "MAP_ROUTE14" "sRoute14_LeafGreen"
     (Some (mkMons 21 [mkMon 24 24 SPECIES_BELLSPROUT; mkMon 24 24 SPECIES_VENONAT; mkMon 22 22 SPECIES_BELLSPROUT; mkMon 23 23 SPECIES_DITTO; mkMon 27 27 SPECIES_PIDGEY; mkMon 26 26 SPECIES_VENONAT; mkMon 26 26 SPECIES_BELLSPROUT; mkMon 30 30 SPECIES_WEEPINBELL; mkMon 23 23 SPECIES_DITTO; mkMon 29 29 SPECIES_PIDGEOTTO; mkMon 23 23 SPECIES_DITTO; mkMon 29 29 SPECIES_PIDGEOTTO]))
     None
     None
     None;
   mkEnc "MAP_ROUTE15" "sRoute15_LeafGreen"
     (Some (mkMons 21 [mkMon 24 24 SPECIES_BELLSPROUT; mkMon 24 24 SPECIES_VENONAT; mkMon 22 22 SPECIES_BELLSPROUT; mkMon 27 27 SPECIES_PIDGEY; mkMon 25 25 SPECIES_PIDGEY; mkMon 26 26 SPECIES_VENONAT; mkMon 26 26 SPECIES_BELLSPROUT; mkMon 25 25 SPECIES_DITTO; mkMon 29 29 SPECIES_PIDGEOTTO; mkMon 28 28 SPECIES_WEEPINBELL; mkMon 29 29 SPECIES_PIDGEOTTO; mkMon 30 30 SPECIES_WEEPINBELL]))
     None
     None
     None;
   mkEnc "MAP_ROUTE16" "sRoute16_LeafGreen"
     (Some (mkMons 21 [mkMon 20 20 SPECIES_SPEAROW; mkMon 18 18 SPECIES_DODUO; mkMon 18 18 SPECIES_RATTATA; mkMon 20 20 SPECIES_RATTATA; mkMon 22 22 SPECIES_SPEAROW; mkMon 20 20 SPECIES_DODUO; mkMon 22 22 SPECIES_RATTATA; mkMon 22 22 SPECIES_DODUO; mkMon 18 18 SPECIES_RATTATA; mkMon 23 23 SPECIES_RATICATE; mkMon 18 18 SPECIES_RATTATA; mkMon 25 25 SPECIES_RATICATE]))
     None
     None
     None;
   mkEnc "MAP_ROUTE17" "sRoute17_LeafGreen"
     (Some (mkMons 21 [mkMon 20 20 SPECIES_SPEAROW; mkMon 24 24 SPECIES_DODUO; mkMon 22 22 SPECIES_SPEAROW; mkMon 26 26 SPECIES_DODUO; mkMon 25 25 SPECIES_RATICATE; mkMon 27 27 SPECIES_RATICATE; mkMon 28 28 SPECIES_DODUO; mkMon 29 29 SPECIES_RATICATE; mkMon 22 22 SPECIES_RATTATA; mkMon 25 25 SPECIES_FEAROW; mkMon 22 22 SPECIES_RATTATA; mkMon 27 27 SPECIES_FEAROW]))
     None
     None
     None;
   mkEnc "MAP_ROUTE18" "sRoute18_LeafGreen"
     (Some (mkMons 21 [mkMon 20 20 SPECIES_SPEAROW; mkMon 24 24 SPECIES_DODUO; mkMon 22 22 SPECIES_SPEAROW; mkMon 26 26 SPECIES_DODUO; mkMon 25 25 SPECIES_RATICATE; mkMon 25 25 SPECIES_FEAROW; mkMon 28 28 SPECIES_DODUO; mkMon 29 29 SPECIES_RATICATE; mkMon 22 22 SPECIES_RATTATA; mkMon 27 27 SPECIES_FEAROW; mkMon 22 22 SPECIES_RATTATA; mkMon 29 29 SPECIES_FEAROW]))
     None
     None
     None;
   mkEnc "MAP_ROUTE19" "sRoute19_LeafGreen"
     None
     (Some (mkMons 2 [mkMon 5 10 SPECIES_TENTACOOL; mkMon 10 20 SPECIES_TENTACOOL; mkMon 20 30 SPECIES_TENTACOOL; mkMon 30 35 SPECIES_TENTACOOL; mkMon 35 40 SPECIES_TENTACOOL]))
     None
     (Some (mkMons 20 [mkMon 5 5 SPECIES_MAGIKARP; mkMon 5 5 SPECIES_MAGIKARP; mkMon 5 15 SPECIES_KRABBY; mkMon 5 15 SPECIES_MAGIKARP; mkMon 5 15 SPECIES_HORSEA; mkMon 15 25 SPECIES_KRABBY; mkMon 15 25 SPECIES_KRABBY; mkMon 15 25 SPECIES_GYARADOS; mkMon 25 35 SPECIES_KINGLER; mkMon 25 35 SPECIES_SLOWPOKE]));
   mkEnc "MAP_ROUTE20" "sRoute20_LeafGreen"
     None
     (Some (mkMons 2 [mkMon 5 10 SPECIES_TENTACOOL; mkMon 10 20 SPECIES_TENTACOOL; mkMon 20 30 SPECIES_TENTACOOL; mkMon 30 35 SPECIES_TENTACOOL; mkMon 35 40 SPECIES_TENTACOOL]))
     None
     (Some (mkMons 20 [mkMon 5 5 SPECIES_MAGIKARP; mkMon 5 5 SPECIES_MAGIKARP; mkMon 5 15 SPECIES_KRABBY; mkMon 5 15 SPECIES_MAGIKARP; mkMon 5 15 SPECIES_HORSEA; mkMon 15 25 SPECIES_KRABBY; mkMon 15 25 SPECIES_KRABBY; mkMon 15 25 SPECIES_GYARADOS; mkMon 25 35 SPECIES_KINGLER; mkMon 25 35 SPECIES_SLOWPOKE]));
   mkEnc "MAP_ROUTE21_NORTH" "sRoute21North_LeafGreen"
     (Some (mkMons 14 [mkMon 22 22 SPECIES_TANGELA; mkMon 23 23 SPECIES_TANGELA; mkMon 24 24 SPECIES_TANGELA; mkMon 21 21 SPECIES_TANGELA; mkMon 25 25 SPECIES_TANGELA; mkMon 20 20 SPECIES_TANGELA; mkMon 19 19 SPECIES_TANGELA; mkMon 26 26 SPECIES_TANGELA; mkMon 18 18 SPECIES_TANGELA; mkMon 27 27 SPECIES_TANGELA; mkMon 17 17 SPECIES_TANGELA; mkMon 28 28 SPECIES_TANGELA]))
     (Some (mkMons 2 [mkMon 5 10 SPECIES_TENTACOOL; mkMon 10 20 SPECIES_TENTACOOL; mkMon 20 30 SPECIES_TENTACOOL; mkMon 30 35 SPECIES_TENTACOOL; mkMon 35 40 SPECIES_TENTACOOL]))
     None
     (Some (mkMons 20 [mkMon 5 5 SPECIES_MAGIKARP; mkMon 5 5 SPECIES_MAGIKARP; mkMon 5 15 SPECIES_KRABBY; mkMon 5 15 SPECIES_MAGIKARP; mkMon 5 15 SPECIES_HORSEA; mkMon 15 25 SPECIES_KRABBY; mkMon 15 25 SPECIES_KRABBY; mkMon 15 25 SPECIES_GYARADOS; mkMon 25 35 SPECIES_KINGLER; mkMon 25 35 SPECIES_SLOWPOKE]));
   mkEnc "MAP_ROUTE21_SOUTH" "sRoute21South_LeafGreen"
     (Some (mkMons 14 [mkMon 22 22 SPECIES_TANGELA; mkMon 23 23 SPECIES_TANGELA; mkMon 24 24 SPECIES_TANGELA; mkMon 21 21 SPECIES_TANGELA; mkMon 25 25 SPECIES_TANGELA; mkMon 20 20 SPECIES_TANGELA; mkMon 19 19 SPECIES_TANGELA; mkMon 26 26 SPECIES_TANGELA; mkMon 18 18 SPECIES_TANGELA; mkMon 27 27 SPECIES_TANGELA; mkMon 17 17 SPECIES_TANGELA; mkMon 28 28 SPECIES_TANGELA]))
     (Some (mkMons 2 [mkMon 5 10 SPECIES_TENTACOOL; mkMon 10 20 SPECIES_TENTACOOL; mkMon 20 30 SPECIES_TENTACOOL; mkMon 30 35 SPECIES_TENTACOOL; mkMon 35 40 SPECIES_TENTACOOL]))
     None
     (Some (mkMons 20 [mkMon 5 5 SPECIES_MAGIKARP; mkMon 5 5 SPECIES_MAGIKARP; mkMon 5 15 SPECIES_KRABBY; mkMon 5 15 SPECIES_MAGIKARP; mkMon 5 15 SPECIES_HORSEA; mkMon 15 25 SPECIES_KRABBY; mkMon 15 25 SPECIES_KRABBY; mkMon 15 25 SPECIES_GYARADOS; mkMon 25 35 SPECIES_KINGLER; mkMon 25 35 SPECIES_SLOWPOKE]));
   mkEnc "MAP_ROUTE22" "sRoute22_LeafGreen"
     (Some (mkMons 21 [mkMon 3 3 SPECIES_RATTATA; mkMon 3 3 SPECIES_MANKEY; mkMon 4 4 SPECIES_RATTATA; mkMon 4 4 SPECIES_MANKEY; mkMon 2 2 SPECIES_RATTATA; mkMon 2 2 SPECIES_MANKEY; mkMon 3 3 SPECIES_SPEAROW; mkMon 5 5 SPECIES_SPEAROW; mkMon 5 5 SPECIES_RATTATA; mkMon 5 5 SPECIES_MANKEY; mkMon 5 5 SPECIES_RATTATA; mkMon 5 5 SPECIES_MANKEY]))
     (Some (mkMons 2 [mkMon 20 25 SPECIES_SLOWPOKE; mkMon 20 25 SPECIES_SLOWPOKE; mkMon 25 30 SPECIES_SLOWPOKE; mkMon 30 35 SPECIES_SLOWPOKE; mkMon 35 40 SPECIES_SLOWPOKE]))
     None
     (Some (mkMons 20 [mkMon 5 5 SPECIES_MAGIKARP; mkMon 5 5 SPECIES_MAGIKARP; mkMon 5 15 SPECIES_POLIWAG; mkMon 5 15 SPECIES_MAGIKARP; mkMon 5 15 SPECIES_GOLDEEN; mkMon 15 25 SPECIES_POLIWAG; mkMon 20 30 SPECIES_POLIWHIRL; mkMon 15 25 SPECIES_GYARADOS; mkMon 15 25 SPECIES_SLOWPOKE; mkMon 25 35 SPECIES_SLOWPOKE]));
   mkEnc "MAP_ROUTE23" "sRoute23_LeafGreen"
     (Some (mkMons 21 [mkMon 32 32 SPECIES_MANKEY; mkMon 40 40 SPECIES_FEAROW; mkMon 34 34 SPECIES_MANKEY; mkMon 34 34 SPECIES_SPEAROW; mkMon 32 32 SPECIES_SANDSHREW; mkMon 34 34 SPECIES_SANDSHREW; mkMon 42 42 SPECIES_PRIMEAPE; mkMon 44 44 SPECIES_SANDSLASH; mkMon 32 32 SPECIES_SPEAROW; mkMon 42 42 SPECIES_FEAROW; mkMon 32 32 SPECIES_SPEAROW; mkMon 44 44 SPECIES_FEAROW]))
     (Some (mkMons 2 [mkMon 20 25 SPECIES_SLOWPOKE; mkMon 20 25 SPECIES_SLOWPOKE; mkMon 25 30 SPECIES_SLOWPOKE; mkMon 30 35 SPECIES_SLOWPOKE; mkMon 35 40 SPECIES_SLOWPOKE]))
     None
     (Some (mkMons 20 [mkMon 5 5 SPECIES_MAGIKARP; mkMon 5 5 SPECIES_MAGIKARP; mkMon 5 15 SPECIES_POLIWAG; mkMon 5 15 SPECIES_MAGIKARP; mkMon 5 15 SPECIES_GOLDEEN; mkMon 15 25 SPECIES_POLIWAG; mkMon 20 30 SPECIES_POLIWHIRL; mkMon 15 25 SPECIES_GYARADOS; mkMon 15 25 SPECIES_SLOWPOKE; mkMon 25 35 SPECIES_SLOWPOKE]));
   mkEnc "MAP_ROUTE24" "sRoute24_LeafGreen"
     (Some (mkMons 21 [mkMon 7 7 SPECIES_WEEDLE; mkMon 7 7 SPECIES_CATERPIE; mkMon 11 11 SPECIES_PIDGEY; mkMon 12 12 SPECIES_BELLSPROUT; mkMon 13 13 SPECIES_BELLSPROUT; mkMon 10 10 SPECIES_ABRA; mkMon 13 13 SPECIES_PIDGEY; mkMon 14 14 SPECIES_BELLSPROUT; mkMon 8 8 SPECIES_METAPOD; mkMon 8 8 SPECIES_ABRA; mkMon 8 8 SPECIES_KAKUNA; mkMon 12 12 SPECIES_ABRA]))
     (Some (mkMons 2 [mkMon 5 10 SPECIES_TENTACOOL; mkMon 10 20 SPECIES_TENTACOOL; mkMon 20 30 SPECIES_TENTACOOL; mkMon 30 35 SPECIES_TENTACOOL; mkMon 35 40 SPECIES_TENTACOOL]))
     None
     (Some (mkMons 20 [mkMon 5 5 SPECIES_MAGIKARP; mkMon 5 5 SPECIES_MAGIKARP; mkMon 5 15 SPECIES_KRABBY; mkMon 5 15 SPECIES_MAGIKARP; mkMon 5 15 SPECIES_HORSEA; mkMon 15 25 SPECIES_KRABBY; mkMon 15 25 SPECIES_KRABBY; mkMon 15 25 SPECIES_GYARADOS; mkMon 25 35 SPECIES_KRABBY; mkMon 25 35 SPECIES_SLOWPOKE]));
   mkEnc "MAP_ROUTE25" "sRoute25_LeafGreen"
     (Some (mkMons 21 [mkMon 8 8 SPECIES_WEEDLE; mkMon 8 8 SPECIES_CATERPIE; mkMon 13 13 SPECIES_PIDGEY; mkMon 14 14 SPECIES_BELLSPROUT; mkMon 13 13 SPECIES_BELLSPROUT; mkMon 11 11 SPECIES_ABRA; mkMon 11 11 SPECIES_PIDGEY; mkMon 12 12 SPECIES_BELLSPROUT; mkMon 9 9 SPECIES_METAPOD; mkMon 9 9 SPECIES_ABRA; mkMon 9 9 SPECIES_KAKUNA; mkMon 13 13 SPECIES_ABRA]))
     (Some (mkMons 2 [mkMon 20 25 SPECIES_SLOWPOKE; mkMon 20 25 SPECIES_SLOWPOKE; mkMon 25 30 SPECIES_SLOWPOKE; mkMon 30 35 SPECIES_SLOWPOKE; mkMon 35 40 SPECIES_SLOWPOKE]))
     None
     (Some (mkMons 20 [mkMon 5 5 SPECIES_MAGIKARP; mkMon 5 5 SPECIES_MAGIKARP; mkMon 5 15 SPECIES_POLIWAG; mkMon 5 15 SPECIES_MAGIKARP; mkMon 5 15 SPECIES_GOLDEEN; mkMon 15 25 SPECIES_POLIWAG; mkMon 20 30 SPECIES_POLIWHIRL; mkMon 15 25 SPECIES_GYARADOS; mkMon 15 25 SPECIES_SLOWPOKE; mkMon 25 35 SPECIES_SLOWPOKE]));
   mkEnc "MAP_PALLET_TOWN" "sPalletTown_LeafGreen"
     None
     (Some (mkMons 1 [mkMon 5 10 SPECIES_TENTACOOL; mkMon 10 20 SPECIES_TENTACOOL; mkMon 20 30 SPECIES_TENTACOOL; mkMon 30 35 SPECIES_TENTACOOL; mkMon 35 40 SPECIES_TENTACOOL]))
     None
     (Some (mkMons 10 [mkMon 5 10 SPECIES_MAGIKARP; mkMon 5 10 SPECIES_MAGIKARP; mkMon 5 15 SPECIES_KRABBY; mkMon 5 15 SPECIES_MAGIKARP; mkMon 5 15 SPECIES_HORSEA; mkMon 15 25 SPECIES_KRABBY; mkMon 15 25 SPECIES_STARYU; mkMon 15 25 SPECIES_GYARADOS; mkMon 25 35 SPECIES_KINGLER; mkMon 25 35 SPECIES_SLOWPOKE]));
   mkEnc "MAP_VIRIDIAN_CITY" "sViridianCity_LeafGreen"
     None
     (Some (mkMons 1 [mkMon 20 25 SPECIES_SLOWPOKE; mkMon 20 25 SPECIES_SLOWPOKE; mkMon 25 30 SPECIES_SLOWPOKE; mkMon 30 35 SPECIES_SLOWPOKE; mkMon 35 40 SPECIES_SLOWPOKE]))
     None
     (Some (mkMons 10 [mkMon 5 5 SPECIES_MAGIKARP; mkMon 5 5 SPECIES_MAGIKARP; mkMon 5 15 SPECIES_POLIWAG; mkMon 5 15 SPECIES_MAGIKARP; mkMon 5 15 SPECIES_GOLDEEN; mkMon 15 25 SPECIES_POLIWAG; mkMon 20 30 SPECIES_POLIWHIRL; mkMon 15 25 SPECIES_GYARADOS; mkMon 15 25 SPECIES_SLOWPOKE; mkMon 25 35 SPECIES_SLOWPOKE]));
   mkEnc "MAP_CERULEAN_CITY" "sCeruleanCity_LeafGreen"
     None
     (Some (mkMons 1 [mkMon 5 10 SPECIES_TENTACOOL; mkMon 10 20 SPECIES_TENTACOOL; mkMon 20 30 SPECIES_TENTACOOL; mkMon 30 35 SPECIES_TENTACOOL; mkMon 35 40 SPECIES_TENTACOOL]))
     None
     (Some (mkMons 10 [mkMon 5 5 SPECIES_MAGIKARP; mkMon 5 5 SPECIES_MAGIKARP; mkMon 5 15 SPECIES_KRABBY; mkMon 5 15 SPECIES_MAGIKARP; mkMon 5 15 SPECIES_HORSEA; mkMon 15 25 SPECIES_KRABBY; mkMon 15 25 SPECIES_KRABBY; mkMon 15 25 SPECIES_GYARADOS; mkMon 25 35 SPECIES_KRABBY; mkMon 25 35 SPECIES_SLOWPOKE]));
   mkEnc "MAP_VERMILION_CITY" "sVermilionCity_LeafGreen"
     None
     (Some (mkMons 1 [mkMon 5 10 SPECIES_TENTACOOL; mkMon 10 20 SPECIES_TENTACOOL; mkMon 20 30 SPECIES_TENTACOOL; mkMon 30 35 SPECIES_TENTACOOL; mkMon 35 40 SPECIES_TENTACOOL]))
     None
     (Some (mkMons 10 [mkMon 5 5 SPECIES_MAGIKARP; mkMon 5 5 SPECIES_MAGIKARP; mkMon 5 15 SPECIES_KRABBY; mkMon 5 15 SPECIES_MAGIKARP; mkMon 5 15 SPECIES_HORSEA; mkMon 15 25 SPECIES_KRABBY; mkMon 15 25 SPECIES_STARYU; mkMon 15 25 SPECIES_GYARADOS; mkMon 25 35 SPECIES_HORSEA; mkMon 25 35 SPECIES_SLOWPOKE]));
   mkEnc "MAP_CELADON_CITY" "sCeladonCity_LeafGreen"
     None
     (Some (mkMons 1 [mkMon 5 10 SPECIES_SLOWPOKE; mkMon 10 20 SPECIES_SLOWPOKE; mkMon 20 30 SPECIES_SLOWPOKE; mkMon 30 40 SPECIES_SLOWPOKE; mkMon 30 40 SPECIES_KOFFING]))
     None
     (Some (mkMons 10 [mkMon 5 5 SPECIES_MAGIKARP; mkMon 5 5 SPECIES_MAGIKARP; mkMon 5 15 SPECIES_MAGIKARP; mkMon 5 15 SPECIES_MAGIKARP; mkMon 5 15 SPECIES_MAGIKARP; mkMon 15 25 SPECIES_MAGIKARP; mkMon 15 25 SPECIES_MAGIKARP; mkMon 15 25 SPECIES_MAGIKARP; mkMon 25 35 SPECIES_MAGIKARP; mkMon 30 40 SPECIES_GRIMER]));
   mkEnc "MAP_FUCHSIA_CITY" "sFuchsiaCity_LeafGreen"
     None
     (Some (mkMons 1 [mkMon 20 25 SPECIES_SLOWPOKE; mkMon 20 25 SPECIES_SLOWPOKE; mkMon 25 30 SPECIES_SLOWPOKE; mkMon 30 35 SPECIES_SLOWPOKE; mkMon 35 40 SPECIES_SLOWPOKE]))
     None
     (Some (mkMons 10 [mkMon 5 5 SPECIES_MAGIKARP; mkMon 5 5 SPECIES_MAGIKARP; mkMon 5 15 SPECIES_GOLDEEN; mkMon 5 15 SPECIES_MAGIKARP; mkMon 5 15 SPECIES_POLIWAG; mkMon 15 25 SPECIES_GOLDEEN; mkMon 20 30 SPECIES_SEAKING; mkMon 15 25 SPECIES_GYARADOS; mkMon 15 25 SPECIES_SLOWPOKE; mkMon 25 35 SPECIES_SLOWPOKE]));
   mkEnc "MAP_CINNABAR_ISLAND" "sCinnabarIsland_LeafGreen"
     None
     (Some (mkMons 1 [mkMon 5 10 SPECIES_TENTACOOL; mkMon 10 20 SPECIES_TENTACOOL; mkMon 20 30 SPECIES_TENTACOOL; mkMon 30 35 SPECIES_TENTACOOL; mkMon 35 40 SPECIES_TENTACOOL]))
     None
     (Some (mkMons 10 [mkMon 5 5 SPECIES_MAGIKARP; mkMon 5 5 SPECIES_MAGIKARP; mkMon 5 15 SPECIES_KRABBY; mkMon 5 15 SPECIES_MAGIKARP; mkMon 5 15 SPECIES_HORSEA; mkMon 15 25 SPECIES_KRABBY; mkMon 15 25 SPECIES_STARYU; mkMon 15 25 SPECIES_GYARADOS; mkMon 25 35 SPECIES_SLOWBRO; mkMon 25 35 SPECIES_SLOWPOKE]));
   mkEnc "MAP_ONE_ISLAND" "sOneIsland_LeafGreen"
     None
     (Some (mkMons 1 [mkMon 5 20 SPECIES_TENTACOOL; mkMon 20 35 SPECIES_TENTACOOL; mkMon 35 40 SPECIES_TENTACOOL; mkMon 35 40 SPECIES_TENTACRUEL; mkMon 35 40 SPECIES_TENTACRUEL]))
     None
     (Some (mkMons 10 [mkMon 5 5 SPECIES_MAGIKARP; mkMon 5 5 SPECIES_MAGIKARP; mkMon 5 15 SPECIES_KRABBY; mkMon 5 15 SPECIES_MAGIKARP; mkMon 5 15 SPECIES_KRABBY; mkMon 15 25 SPECIES_KRABBY; mkMon 15 25 SPECIES_STARYU; mkMon 15 25 SPECIES_GYARADOS; mkMon 25 35 SPECIES_KINGLER; mkMon 25 35 SPECIES_SLOWPOKE]));
   mkEnc "MAP_FOUR_ISLAND" "sFourIsland_LeafGreen"
     None
     (Some (mkMons 2 [mkMon 5 15 SPECIES_MARILL; mkMon 5 35 SPECIES_SLOWPOKE; mkMon 15 25 SPECIES_MARILL; mkMon 15 25 SPECIES_MARILL; mkMon 15 25 SPECIES_MARILL]))
     None
     (Some (mkMons 20 [mkMon 5 5 SPECIES_MAGIKARP; mkMon 5 5 SPECIES_MAGIKARP; mkMon 5 15 SPECIES_POLIWAG; mkMon 5 15 SPECIES_MAGIKARP; mkMon 5 15 SPECIES_GOLDEEN; mkMon 15 25 SPECIES_POLIWAG; mkMon 20 30 SPECIES_POLIWHIRL; mkMon 15 25 SPECIES_GYARADOS; mkMon 15 25 SPECIES_SLOWPOKE; mkMon 25 35 SPECIES_SLOWPOKE]));
   mkEnc "MAP_FIVE_ISLAND" "sFiveIsland_LeafGreen"
     None
     (Some (mkMons 1 [mkMon 5 35 SPECIES_TENTACOOL; mkMon 5 15 SPECIES_HOPPIP; mkMon 35 40 SPECIES_TENTACOOL; mkMon 35 40 SPECIES_TENTACRUEL; mkMon 35 40 SPECIES_TENTACRUEL]))
     None
     (Some (mkMons 10 [mkMon 5 5 SPECIES_MAGIKARP; mkMon 5 5 SPECIES_MAGIKARP; mkMon 5 15 SPECIES_KRABBY; mkMon 5 15 SPECIES_MAGIKARP; mkMon 5 15 SPECIES_KRABBY; mkMon 15 25 SPECIES_KRABBY; mkMon 15 25 SPECIES_STARYU; mkMon 15 25 SPECIES_GYARADOS; mkMon 25 35 SPECIES_KINGLER; mkMon 25 35 SPECIES_SLOWPOKE]));
   mkEnc "MAP_SIX_ISLAND_ALTERING_CAVE" "sSixIslandAlteringCave_LeafGreen"
     (Some (mkMons 7 [mkMon 10 10 SPECIES_ZUBAT; mkMon 12 12 SPECIES_ZUBAT; mkMon 8 8 SPECIES_ZUBAT; mkMon 14 14 SPECIES_ZUBAT; mkMon 10 10 SPECIES_ZUBAT; mkMon 12 12 SPECIES_ZUBAT; mkMon 16 16 SPECIES_ZUBAT; mkMon 6 6 SPECIES_ZUBAT; mkMon 8 8 SPECIES_ZUBAT; mkMon 14 14 SPECIES_ZUBAT; mkMon 8 8 SPECIES_ZUBAT; mkMon 14 14 SPECIES_ZUBAT]))
     None
     None
     None;
   mkEnc "MAP_SIX_ISLAND_ALTERING_CAVE" "sSixIslandAlteringCave_2_LeafGreen"
     (Some (mkMons 7 [mkMon 7 7 SPECIES_MAREEP; mkMon 9 9 SPECIES_MAREEP; mkMon 5 5 SPECIES_MAREEP; mkMon 11 11 SPECIES_MAREEP; mkMon 7 7 SPECIES_MAREEP; mkMon 9 9 SPECIES_MAREEP; mkMon 13 13 SPECIES_MAREEP; mkMon 3 3 SPECIES_MAREEP; mkMon 5 5 SPECIES_MAREEP; mkMon 11 11 SPECIES_MAREEP; mkMon 5 5 SPECIES_MAREEP; mkMon 11 11 SPECIES_MAREEP]))
     None
     None
     None;
   mkEnc "MAP_SIX_ISLAND_ALTERING_CAVE" "sSixIslandAlteringCave_3_LeafGreen"
     (Some (mkMons 7 [mkMon 23 23 SPECIES_PINECO; mkMon 25 25 SPECIES_PINECO; mkMon 22 22 SPECIES_PINECO; mkMon 27 27 SPECIES_PINECO; mkMon 23 23 SPECIES_PINECO; mkMon 25 25 SPECIES_PINECO; mkMon 29 29 SPECIES_PINECO; mkMon 19 19 SPECIES_PINECO; mkMon 21 21 SPECIES_PINECO; mkMon 27 27 SPECIES_PINECO; mkMon 21 21 SPECIES_PINECO; mkMon 27 27 SPECIES_PINECO]))
     None
     None
     None;
   mkEnc "MAP_SIX_ISLAND_ALTERING_CAVE" "sSixIslandAlteringCave_4_LeafGreen"
     (Some (mkMons 7 [mkMon 16 16 SPECIES_HOUNDOUR; mkMon 18 18 SPECIES_HOUNDOUR; mkMon 14 14 SPECIES_HOUNDOUR; mkMon 20 20 SPECIES_HOUNDOUR; mkMon 16 16 SPECIES_HOUNDOUR; mkMon 18 18 SPECIES_HOUNDOUR; mkMon 22 22 SPECIES_HOUNDOUR; mkMon 12 12 SPECIES_HOUNDOUR; mkMon 14 14 SPECIES_HOUNDOUR; mkMon 20 20 SPECIES_HOUNDOUR; mkMon 14 14 SPECIES_HOUNDOUR; mkMon 20 20 SPECIES_HOUNDOUR]))
     None
     None
     None;
   mkEnc "MAP_SIX_ISLAND_ALTERING_CAVE" "sSixIslandAlteringCave_5_LeafGreen"
     (Some (mkMons 7 [mkMon 22 22 SPECIES_TEDDIURSA; mkMon 24 24 SPECIES_TEDDIURSA; mkMon 20 20 SPECIES_TEDDIURSA; mkMon 26 26 SPECIES_TEDDIURSA; mkMon 22 22 SPECIES_TEDDIURSA; mkMon 24 24 SPECIES_TEDDIURSA; mkMon 28 28 SPECIES_TEDDIURSA; mkMon 18 18 SPECIES_TEDDIURSA; mkMon 20 20 SPECIES_TEDDIURSA; mkMon 26 26 SPECIES_TEDDIURSA; mkMon 20 20 SPECIES_TEDDIURSA; mkMon 26 26 SPECIES_TEDDIURSA]))
     None
     None
     None;
   mkEnc "MAP_SIX_ISLAND_ALTERING_CAVE" "sSixIslandAlteringCave_6_LeafGreen"
     (Some (mkMons 7 [mkMon 22 22 SPECIES_AIPOM; mkMon 24 24 SPECIES_AIPOM; mkMon 20 20 SPECIES_AIPOM; mkMon 26 26 SPECIES_AIPOM; mkMon 22 22 SPECIES_AIPOM; mkMon 24 24 SPECIES_AIPOM; mkMon 28 28 SPECIES_AIPOM; mkMon 18 18 SPECIES_AIPOM; mkMon 20 20 SPECIES_AIPOM; mkMon 26 26 SPECIES_AIPOM; mkMon 20 20 SPECIES_AIPOM; mkMon 26 26 SPECIES_AIPOM]))
     None
     None
     None;
   mkEnc "MAP_SIX_ISLAND_ALTERING_CAVE" "sSixIslandAlteringCave_7_LeafGreen"
     (Some (mkMons 7 [mkMon 22 22 SPECIES_SHUCKLE; mkMon 24 24 SPECIES_SHUCKLE; mkMon 20 20 SPECIES_SHUCKLE; mkMon 26 26 SPECIES_SHUCKLE; mkMon 22 22 SPECIES_SHUCKLE; mkMon 24 24 SPECIES_SHUCKLE; mkMon 28 28 SPECIES_SHUCKLE; mkMon 18 18 SPECIES_SHUCKLE; mkMon 20 20 SPECIES_SHUCKLE; mkMon 26 26 SPECIES_SHUCKLE; mkMon 20 20 SPECIES_SHUCKLE; mkMon 26 26 SPECIES_SHUCKLE]))
     None
     None
     None;
   mkEnc "MAP_SIX_ISLAND_ALTERING_CAVE" "sSixIslandAlteringCave_8_LeafGreen"
     (Some (mkMons 7 [mkMon 22 22 SPECIES_STANTLER; mkMon 24 24 SPECIES_STANTLER; mkMon 20 20 SPECIES_STANTLER; mkMon 26 26 SPECIES_STANTLER; mkMon 22 22 SPECIES_STANTLER; mkMon 24 24 SPECIES_STANTLER; mkMon 28 28 SPECIES_STANTLER; mkMon 18 18 SPECIES_STANTLER; mkMon 20 20 SPECIES_STANTLER; mkMon 26 26 SPECIES_STANTLER; mkMon 20 20 SPECIES_STANTLER; mkMon 26 26 SPECIES_STANTLER]))
     None
     None
     None;
   mkEnc "MAP_SIX_ISLAND_ALTERING_CAVE" "sSixIslandAlteringCave_9_LeafGreen"
     (Some (mkMons 7 [mkMon 22 22 SPECIES_SMEARGLE; mkMon 24 24 SPECIES_SMEARGLE; mkMon 20 20 SPECIES_SMEARGLE; mkMon 26 26 SPECIES_SMEARGLE; mkMon 22 22 SPECIES_SMEARGLE; mkMon 24 24 SPECIES_SMEARGLE; mkMon 28 28 SPECIES_SMEARGLE; mkMon 18 18 SPECIES_SMEARGLE; mkMon 20 20 SPECIES_SMEARGLE; mkMon 26 26 SPECIES_SMEARGLE; mkMon 20 20 SPECIES_SMEARGLE; mkMon 26 26 SPECIES_SMEARGLE]))
     None
     None
     None].

Definition bundled_files : files := mkFiles rs_encounters e_encounters frlg_encounters.
