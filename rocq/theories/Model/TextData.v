(** Generated by tools/gen_text.py: the tuples of data/__init__.py:6-8 and 18-28, from
    resources/txt/*.txt. The strings are the UTF-8 bytes of the names. *)
From Coq Require Import String List.
Import ListNotations.
Open Scope string_scope.

Definition SPECIES_EN : list string :=
  ["Egg";
   "Bulbasaur";
   "Ivysaur";
   "Venusaur";
   "Charmander";
   "Charmeleon";
   "Charizard";
   "Squirtle";
   "Wartortle";
   "Blastoise";
   "Caterpie";
   "Metapod";
   "Butterfree";
   "Weedle";
   "Kakuna";
   "Beedrill";
   "Pidgey";
   "Pidgeotto";
   "Pidgeot";
   "Rattata";
   "Raticate";
   "Spearow";
   "Fearow";
   "Ekans";
   "Arbok";
   "Pikachu";
   "Raichu";
   "Sandshrew";
   "Sandslash";
   "Nidoran♀";
   "Nidorina";
   "Nidoqueen";
   "Nidoran♂";
   "Nidorino";
   "Nidoking";
   "Clefairy";
   "Clefable";
   "Vulpix";
   "Ninetales";
   "Jigglypuff";
   "Wigglytuff";
   "Zubat";
   "Golbat";
   "Oddish";
   "Gloom";
   "Vileplume";
   "Paras";
   "Parasect";
   "Venonat";
   "Venomoth";
   "Diglett";
   "Dugtrio";
   "Meowth";
   "Persian";
   "Psyduck";
   "Golduck";
   "Mankey";
   "Primeape";
   "Growlithe";
   "Arcanine";
   "Poliwag";
   "Poliwhirl";
   "Poliwrath";
   "Abra";
   "Kadabra";
   "Alakazam";
   "Machop";
   "Machoke";
   "Machamp";
   "Bellsprout";
   "Weepinbell";
   "Victreebel";
   "Tentacool";
   "Tentacruel";
   "Geodude";
   "Graveler";
   "Golem";
   "Ponyta";
   "Rapidash";
   "Slowpoke";
   "Slowbro";
   "Magnemite";
   "Magneton";
   "Farfetch’d";
   "Doduo";
   "Dodrio";
   "Seel";
   "Dewgong";
   "Grimer";
   "Muk";
   "Shellder";
   "Cloyster";
   "Gastly";
   "Haunter";
   "Gengar";
   "Onix";
   "Drowzee";
   "Hypno";
   "Krabby";
   "Kingler";
   "Voltorb";
   "Electrode";
   "Exeggcute";
   "Exeggutor";
   "Cubone";
   "Marowak";
   "Hitmonlee";
   "Hitmonchan";
   "Lickitung";
   "Koffing";
   "Weezing";
   "Rhyhorn";
   "Rhydon";
   "Chansey";
   "Tangela";
   "Kangaskhan";
   "Horsea";
   "Seadra";
   "Goldeen";
   "Seaking";
   "Staryu";
   "Starmie";
   "Mr. Mime";
   "Scyther";
   "Jynx";
   "Electabuzz";
   "Magmar";
   "Pinsir";
   "Tauros";
   "Magikarp";
   "Gyarados";
   "Lapras";
   "Ditto";
   "Eevee";
   "Vaporeon";
   "Jolteon";
   "Flareon";
   "Porygon";
   "Omanyte";
   "Omastar";
   "Kabuto";
   "Kabutops";
   "Aerodactyl";
   "Snorlax";
   "Articuno";
   "Zapdos";
   "Moltres";
   "Dratini";
   "Dragonair";
   "Dragonite";
   "Mewtwo";
   "Mew";
   "Chikorita";
   "Bayleef";
   "Meganium";
   "Cyndaquil";
   "Quilava";
   "Typhlosion";
   "Totodile";
   "Croconaw";
   "Feraligatr";
   "Sentret";
   "Furret";
   "Hoothoot";
   "Noctowl";
   "Ledyba";
   "Ledian";
   "Spinarak";
   "Ariados";
   "Crobat";
   "Chinchou";
   "Lanturn";
   "Pichu";
   "Cleffa";
   "Igglybuff";
   "Togepi";
   "Togetic";
   "Natu";
   "Xatu";
   "Mareep";
   "Flaaffy";
   "Ampharos";
   "Bellossom";
   "Marill";
   "Azumarill";
   "Sudowoodo";
   "Politoed";
   "Hoppip";
   "Skiploom";
   "Jumpluff";
   "Aipom";
   "Sunkern";
   "Sunflora";
   "Yanma";
   "Wooper";
   "Quagsire";
   "Espeon";
   "Umbreon";
   "Murkrow";
   "Slowking";
   "Misdreavus";
   "Unown";
   "Wobbuffet";
   "Girafarig";
   "Pineco";
   "Forretress";
   "Dunsparce";
   "Gligar";
   "Steelix";
   "Snubbull";
   "Granbull";
   "Qwilfish";
   "Scizor";
   "Shuckle";
   "Heracross";
   "Sneasel";
   "Teddiursa";
   "Ursaring";
   "Slugma";
   "Magcargo";
   "Swinub";
   "Piloswine";
   "Corsola";
   "Remoraid";
   "Octillery";
   "Delibird";
   "Mantine";
   "Skarmory";
   "Houndour";
   "Houndoom";
   "Kingdra";
   "Phanpy";
   "Donphan";
   "Porygon2";
   "Stantler";
   "Smeargle";
   "Tyrogue";
   "Hitmontop";
   "Smoochum";
   "Elekid";
   "Magby";
   "Miltank";
   "Blissey";
   "Raikou";
   "Entei";
   "Suicune";
   "Larvitar";
   "Pupitar";
   "Tyranitar";
   "Lugia";
   "Ho-Oh";
   "Celebi";
   "Treecko";
   "Grovyle";
   "Sceptile";
   "Torchic";
   "Combusken";
   "Blaziken";
   "Mudkip";
   "Marshtomp";
   "Swampert";
   "Poochyena";
   "Mightyena";
   "Zigzagoon";
   "Linoone";
   "Wurmple";
   "Silcoon";
   "Beautifly";
   "Cascoon";
   "Dustox";
   "Lotad";
   "Lombre";
   "Ludicolo";
   "Seedot";
   "Nuzleaf";
   "Shiftry";
   "Taillow";
   "Swellow";
   "Wingull";
   "Pelipper";
   "Ralts";
   "Kirlia";
   "Gardevoir";
   "Surskit";
   "Masquerain";
   "Shroomish";
   "Breloom";
   "Slakoth";
   "Vigoroth";
   "Slaking";
   "Nincada";
   "Ninjask";
   "Shedinja";
   "Whismur";
   "Loudred";
   "Exploud";
   "Makuhita";
   "Hariyama";
   "Azurill";
   "Nosepass";
   "Skitty";
   "Delcatty";
   "Sableye";
   "Mawile";
   "Aron";
   "Lairon";
   "Aggron";
   "Meditite";
   "Medicham";
   "Electrike";
   "Manectric";
   "Plusle";
   "Minun";
   "Volbeat";
   "Illumise";
   "Roselia";
   "Gulpin";
   "Swalot";
   "Carvanha";
   "Sharpedo";
   "Wailmer";
   "Wailord";
   "Numel";
   "Camerupt";
   "Torkoal";
   "Spoink";
   "Grumpig";
   "Spinda";
   "Trapinch";
   "Vibrava";
   "Flygon";
   "Cacnea";
   "Cacturne";
   "Swablu";
   "Altaria";
   "Zangoose";
   "Seviper";
   "Lunatone";
   "Solrock";
   "Barboach";
   "Whiscash";
   "Corphish";
   "Crawdaunt";
   "Baltoy";
   "Claydol";
   "Lileep";
   "Cradily";
   "Anorith";
   "Armaldo";
   "Feebas";
   "Milotic";
   "Castform";
   "Kecleon";
   "Shuppet";
   "Banette";
   "Duskull";
   "Dusclops";
   "Tropius";
   "Chimecho";
   "Absol";
   "Wynaut";
   "Snorunt";
   "Glalie";
   "Spheal";
   "Sealeo";
   "Walrein";
   "Clamperl";
   "Huntail";
   "Gorebyss";
   "Relicanth";
   "Luvdisc";
   "Bagon";
   "Shelgon";
   "Salamence";
   "Beldum";
   "Metang";
   "Metagross";
   "Regirock";
   "Regice";
   "Registeel";
   "Latias";
   "Latios";
   "Kyogre";
   "Groudon";
   "Rayquaza";
   "Jirachi";
   "Deoxys";
   "Turtwig";
   "Grotle";
   "Torterra";
   "Chimchar";
   "Monferno";
   "Infernape";
   "Piplup";
   "Prinplup";
   "Empoleon";
   "Starly";
   "Staravia";
   "Staraptor";
   "Bidoof";
   "Bibarel";
   "Kricketot";
   "Kricketune";
   "Shinx";
   "Luxio";
   "Luxray";
   "Budew";
   "Roserade";
   "Cranidos";
   "Rampardos";
   "Shieldon";
   "Bastiodon";
   "Burmy";
   "Wormadam";
   "Mothim";
   "Combee";
   "Vespiquen";
   "Pachirisu";
   "Buizel";
   "Floatzel";
   "Cherubi";
   "Cherrim";
   "Shellos";
   "Gastrodon";
   "Ambipom";
   "Drifloon";
   "Drifblim";
   "Buneary";
   "Lopunny";
   "Mismagius";
   "Honchkrow";
   "Glameow";
   "Purugly";
   "Chingling";
   "Stunky";
   "Skuntank";
   "Bronzor";
   "Bronzong";
   "Bonsly";
   "Mime Jr.";
   "Happiny";
   "Chatot";
   "Spiritomb";
   "Gible";
   "Gabite";
   "Garchomp";
   "Munchlax";
   "Riolu";
   "Lucario";
   "Hippopotas";
   "Hippowdon";
   "Skorupi";
   "Drapion";
   "Croagunk";
   "Toxicroak";
   "Carnivine";
   "Finneon";
   "Lumineon";
   "Mantyke";
   "Snover";
   "Abomasnow";
   "Weavile";
   "Magnezone";
   "Lickilicky";
   "Rhyperior";
   "Tangrowth";
   "Electivire";
   "Magmortar";
   "Togekiss";
   "Yanmega";
   "Leafeon";
   "Glaceon";
   "Gliscor";
   "Mamoswine";
   "Porygon-Z";
   "Gallade";
   "Probopass";
   "Dusknoir";
   "Froslass";
   "Rotom";
   "Uxie";
   "Mesprit";
   "Azelf";
   "Dialga";
   "Palkia";
   "Heatran";
   "Regigigas";
   "Giratina";
   "Cresselia";
   "Phione";
   "Manaphy";
   "Darkrai";
   "Shaymin";
   "Arceus";
   "Victini";
   "Snivy";
   "Servine";
   "Serperior";
   "Tepig";
   "Pignite";
   "Emboar";
   "Oshawott";
   "Dewott";
   "Samurott";
   "Patrat";
   "Watchog";
   "Lillipup";
   "Herdier";
   "Stoutland";
   "Purrloin";
   "Liepard";
   "Pansage";
   "Simisage";
   "Pansear";
   "Simisear";
   "Panpour";
   "Simipour";
   "Munna";
   "Musharna";
   "Pidove";
   "Tranquill";
   "Unfezant";
   "Blitzle";
   "Zebstrika";
   "Roggenrola";
   "Boldore";
   "Gigalith";
   "Woobat";
   "Swoobat";
   "Drilbur";
   "Excadrill";
   "Audino";
   "Timburr";
   "Gurdurr";
   "Conkeldurr";
   "Tympole";
   "Palpitoad";
   "Seismitoad";
   "Throh";
   "Sawk";
   "Sewaddle";
   "Swadloon";
   "Leavanny";
   "Venipede";
   "Whirlipede";
   "Scolipede";
   "Cottonee";
   "Whimsicott";
   "Petilil";
   "Lilligant";
   "Basculin";
   "Sandile";
   "Krokorok";
   "Krookodile";
   "Darumaka";
   "Darmanitan";
   "Maractus";
   "Dwebble";
   "Crustle";
   "Scraggy";
   "Scrafty";
   "Sigilyph";
   "Yamask";
   "Cofagrigus";
   "Tirtouga";
   "Carracosta";
   "Archen";
   "Archeops";
   "Trubbish";
   "Garbodor";
   "Zorua";
   "Zoroark";
   "Minccino";
   "Cinccino";
   "Gothita";
   "Gothorita";
   "Gothitelle";
   "Solosis";
   "Duosion";
   "Reuniclus";
   "Ducklett";
   "Swanna";
   "Vanillite";
   "Vanillish";
   "Vanilluxe";
   "Deerling";
   "Sawsbuck";
   "Emolga";
   "Karrablast";
   "Escavalier";
   "Foongus";
   "Amoonguss";
   "Frillish";
   "Jellicent";
   "Alomomola";
   "Joltik";
   "Galvantula";
   "Ferroseed";
   "Ferrothorn";
   "Klink";
   "Klang";
   "Klinklang";
   "Tynamo";
   "Eelektrik";
   "Eelektross";
   "Elgyem";
   "Beheeyem";
   "Litwick";
   "Lampent";
   "Chandelure";
   "Axew";
   "Fraxure";
   "Haxorus";
   "Cubchoo";
   "Beartic";
   "Cryogonal";
   "Shelmet";
   "Accelgor";
   "Stunfisk";
   "Mienfoo";
   "Mienshao";
   "Druddigon";
   "Golett";
   "Golurk";
   "Pawniard";
   "Bisharp";
   "Bouffalant";
   "Rufflet";
   "Braviary";
   "Vullaby";
   "Mandibuzz";
   "Heatmor";
   "Durant";
   "Deino";
   "Zweilous";
   "Hydreigon";
   "Larvesta";
   "Volcarona";
   "Cobalion";
   "Terrakion";
   "Virizion";
   "Tornadus";
   "Thundurus";
   "Reshiram";
   "Zekrom";
   "Landorus";
   "Kyurem";
   "Keldeo";
   "Meloetta";
   "Genesect";
   "Chespin";
   "Quilladin";
   "Chesnaught";
   "Fennekin";
   "Braixen";
   "Delphox";
   "Froakie";
   "Frogadier";
   "Greninja";
   "Bunnelby";
   "Diggersby";
   "Fletchling";
   "Fletchinder";
   "Talonflame";
   "Scatterbug";
   "Spewpa";
   "Vivillon";
   "Litleo";
   "Pyroar";
   "Flabébé";
   "Floette";
   "Florges";
   "Skiddo";
   "Gogoat";
   "Pancham";
   "Pangoro";
   "Furfrou";
   "Espurr";
   "Meowstic";
   "Honedge";
   "Doublade";
   "Aegislash";
   "Spritzee";
   "Aromatisse";
   "Swirlix";
   "Slurpuff";
   "Inkay";
   "Malamar";
   "Binacle";
   "Barbaracle";
   "Skrelp";
   "Dragalge";
   "Clauncher";
   "Clawitzer";
   "Helioptile";
   "Heliolisk";
   "Tyrunt";
   "Tyrantrum";
   "Amaura";
   "Aurorus";
   "Sylveon";
   "Hawlucha";
   "Dedenne";
   "Carbink";
   "Goomy";
   "Sliggoo";
   "Goodra";
   "Klefki";
   "Phantump";
   "Trevenant";
   "Pumpkaboo";
   "Gourgeist";
   "Bergmite";
   "Avalugg";
   "Noibat";
   "Noivern";
   "Xerneas";
   "Yveltal";
   "Zygarde";
   "Diancie";
   "Hoopa";
   "Volcanion";
   "Rowlet";
   "Dartrix";
   "Decidueye";
   "Litten";
   "Torracat";
   "Incineroar";
   "Popplio";
   "Brionne";
   "Primarina";
   "Pikipek";
   "Trumbeak";
   "Toucannon";
   "Yungoos";
   "Gumshoos";
   "Grubbin";
   "Charjabug";
   "Vikavolt";
   "Crabrawler";
   "Crabominable";
   "Oricorio";
   "Cutiefly";
   "Ribombee";
   "Rockruff";
   "Lycanroc";
   "Wishiwashi";
   "Mareanie";
   "Toxapex";
   "Mudbray";
   "Mudsdale";
   "Dewpider";
   "Araquanid";
   "Fomantis";
   "Lurantis";
   "Morelull";
   "Shiinotic";
   "Salandit";
   "Salazzle";
   "Stufful";
   "Bewear";
   "Bounsweet";
   "Steenee";
   "Tsareena";
   "Comfey";
   "Oranguru";
   "Passimian";
   "Wimpod";
   "Golisopod";
   "Sandygast";
   "Palossand";
   "Pyukumuku";
   "Type: Null";
   "Silvally";
   "Minior";
   "Komala";
   "Turtonator";
   "Togedemaru";
   "Mimikyu";
   "Bruxish";
   "Drampa";
   "Dhelmise";
   "Jangmo-o";
   "Hakamo-o";
   "Kommo-o";
   "Tapu Koko";
   "Tapu Lele";
   "Tapu Bulu";
   "Tapu Fini";
   "Cosmog";
   "Cosmoem";
   "Solgaleo";
   "Lunala";
   "Nihilego";
   "Buzzwole";
   "Pheromosa";
   "Xurkitree";
   "Celesteela";
   "Kartana";
   "Guzzlord";
   "Necrozma";
   "Magearna";
   "Marshadow";
   "Poipole";
   "Naganadel";
   "Stakataka";
   "Blacephalon";
   "Zeraora";
   "Meltan";
   "Melmetal";
   "Grookey";
   "Thwackey";
   "Rillaboom";
   "Scorbunny";
   "Raboot";
   "Cinderace";
   "Sobble";
   "Drizzile";
   "Inteleon";
   "Skwovet";
   "Greedent";
   "Rookidee";
   "Corvisquire";
   "Corviknight";
   "Blipbug";
   "Dottler";
   "Orbeetle";
   "Nickit";
   "Thievul";
   "Gossifleur";
   "Eldegoss";
   "Wooloo";
   "Dubwool";
   "Chewtle";
   "Drednaw";
   "Yamper";
   "Boltund";
   "Rolycoly";
   "Carkol";
   "Coalossal";
   "Applin";
   "Flapple";
   "Appletun";
   "Silicobra";
   "Sandaconda";
   "Cramorant";
   "Arrokuda";
   "Barraskewda";
   "Toxel";
   "Toxtricity";
   "Sizzlipede";
   "Centiskorch";
   "Clobbopus";
   "Grapploct";
   "Sinistea";
   "Polteageist";
   "Hatenna";
   "Hattrem";
   "Hatterene";
   "Impidimp";
   "Morgrem";
   "Grimmsnarl";
   "Obstagoon";
   "Perrserker";
   "Cursola";
   "Sirfetch’d";
   "Mr. Rime";
   "Runerigus";
   "Milcery";
   "Alcremie";
   "Falinks";
   "Pincurchin";
   "Snom";
   "Frosmoth";
   "Stonjourner";
   "Eiscue";
   "Indeedee";
   "Morpeko";
   "Cufant";
   "Copperajah";
   "Dracozolt";
   "Arctozolt";
   "Dracovish";
   "Arctovish";
   "Duraludon";
   "Dreepy";
   "Drakloak";
   "Dragapult";
   "Zacian";
   "Zamazenta";
   "Eternatus";
   "Kubfu";
   "Urshifu";
   "Zarude";
   "Regieleki";
   "Regidrago";
   "Glastrier";
   "Spectrier";
   "Calyrex";
   "Wyrdeer";
   "Kleavor";
   "Ursaluna";
   "Basculegion";
   "Sneasler";
   "Overqwil";
   "Enamorus";
   "Sprigatito";
   "Floragato";
   "Meowscarada";
   "Fuecoco";
   "Crocalor";
   "Skeledirge";
   "Quaxly";
   "Quaxwell";
   "Quaquaval";
   "Lechonk";
   "Oinkologne";
   "Tarountula";
   "Spidops";
   "Nymble";
   "Lokix";
   "Pawmi";
   "Pawmo";
   "Pawmot";
   "Tandemaus";
   "Maushold";
   "Fidough";
   "Dachsbun";
   "Smoliv";
   "Dolliv";
   "Arboliva";
   "Squawkabilly";
   "Nacli";
   "Naclstack";
   "Garganacl";
   "Charcadet";
   "Armarouge";
   "Ceruledge";
   "Tadbulb";
   "Bellibolt";
   "Wattrel";
   "Kilowattrel";
   "Maschiff";
   "Mabosstiff";
   "Shroodle";
   "Grafaiai";
   "Bramblin";
   "Brambleghast";
   "Toedscool";
   "Toedscruel";
   "Klawf";
   "Capsakid";
   "Scovillain";
   "Rellor";
   "Rabsca";
   "Flittle";
   "Espathra";
   "Tinkatink";
   "Tinkatuff";
   "Tinkaton";
   "Wiglett";
   "Wugtrio";
   "Bombirdier";
   "Finizen";
   "Palafin";
   "Varoom";
   "Revavroom";
   "Cyclizar";
   "Orthworm";
   "Glimmet";
   "Glimmora";
   "Greavard";
   "Houndstone";
   "Flamigo";
   "Cetoddle";
   "Cetitan";
   "Veluza";
   "Dondozo";
   "Tatsugiri";
   "Annihilape";
   "Clodsire";
   "Farigiraf";
   "Dudunsparce";
   "Kingambit";
   "Great Tusk";
   "Scream Tail";
   "Brute Bonnet";
   "Flutter Mane";
   "Slither Wing";
   "Sandy Shocks";
   "Iron Treads";
   "Iron Bundle";
   "Iron Hands";
   "Iron Jugulis";
   "Iron Moth";
   "Iron Thorns";
   "Frigibax";
   "Arctibax";
   "Baxcalibur";
   "Gimmighoul";
   "Gholdengo";
   "Wo-Chien";
   "Chien-Pao";
   "Ting-Lu";
   "Chi-Yu";
   "Roaring Moon";
   "Iron Valiant";
   "Koraidon";
   "Miraidon";
   "Walking Wake";
   "Iron Leaves"].

Definition ABILITIES_EN : list string :=
  ["—";
   "Stench";
   "Drizzle";
   "Speed Boost";
   "Battle Armor";
   "Sturdy";
   "Damp";
   "Limber";
   "Sand Veil";
   "Static";
   "Volt Absorb";
   "Water Absorb";
   "Oblivious";
   "Cloud Nine";
   "Compound Eyes";
   "Insomnia";
   "Color Change";
   "Immunity";
   "Flash Fire";
   "Shield Dust";
   "Own Tempo";
   "Suction Cups";
   "Intimidate";
   "Shadow Tag";
   "Rough Skin";
   "Wonder Guard";
   "Levitate";
   "Effect Spore";
   "Synchronize";
   "Clear Body";
   "Natural Cure";
   "Lightning Rod";
   "Serene Grace";
   "Swift Swim";
   "Chlorophyll";
   "Illuminate";
   "Trace";
   "Huge Power";
   "Poison Point";
   "Inner Focus";
   "Magma Armor";
   "Water Veil";
   "Magnet Pull";
   "Soundproof";
   "Rain Dish";
   "Sand Stream";
   "Pressure";
   "Thick Fat";
   "Early Bird";
   "Flame Body";
   "Run Away";
   "Keen Eye";
   "Hyper Cutter";
   "Pickup";
   "Truant";
   "Hustle";
   "Cute Charm";
   "Plus";
   "Minus";
   "Forecast";
   "Sticky Hold";
   "Shed Skin";
   "Guts";
   "Marvel Scale";
   "Liquid Ooze";
   "Overgrow";
   "Blaze";
   "Torrent";
   "Swarm";
   "Rock Head";
   "Drought";
   "Arena Trap";
   "Vital Spirit";
   "White Smoke";
   "Pure Power";
   "Shell Armor";
   "Air Lock";
   "Tangled Feet";
   "Motor Drive";
   "Rivalry";
   "Steadfast";
   "Snow Cloak";
   "Gluttony";
   "Anger Point";
   "Unburden";
   "Heatproof";
   "Simple";
   "Dry Skin";
   "Download";
   "Iron Fist";
   "Poison Heal";
   "Adaptability";
   "Skill Link";
   "Hydration";
   "Solar Power";
   "Quick Feet";
   "Normalize";
   "Sniper";
   "Magic Guard";
   "No Guard";
   "Stall";
   "Technician";
   "Leaf Guard";
   "Klutz";
   "Mold Breaker";
   "Super Luck";
   "Aftermath";
   "Anticipation";
   "Forewarn";
   "Unaware";
   "Tinted Lens";
   "Filter";
   "Slow Start";
   "Scrappy";
   "Storm Drain";
   "Ice Body";
   "Solid Rock";
   "Snow Warning";
   "Honey Gather";
   "Frisk";
   "Reckless";
   "Multitype";
   "Flower Gift";
   "Bad Dreams";
   "Pickpocket";
   "Sheer Force";
   "Contrary";
   "Unnerve";
   "Defiant";
   "Defeatist";
   "Cursed Body";
   "Healer";
   "Friend Guard";
   "Weak Armor";
   "Heavy Metal";
   "Light Metal";
   "Multiscale";
   "Toxic Boost";
   "Flare Boost";
   "Harvest";
   "Telepathy";
   "Moody";
   "Overcoat";
   "Poison Touch";
   "Regenerator";
   "Big Pecks";
   "Sand Rush";
   "Wonder Skin";
   "Analytic";
   "Illusion";
   "Imposter";
   "Infiltrator";
   "Mummy";
   "Moxie";
   "Justified";
   "Rattled";
   "Magic Bounce";
   "Sap Sipper";
   "Prankster";
   "Sand Force";
   "Iron Barbs";
   "Zen Mode";
   "Victory Star";
   "Turboblaze";
   "Teravolt";
   "Aroma Veil";
   "Flower Veil";
   "Cheek Pouch";
   "Protean";
   "Fur Coat";
   "Magician";
   "Bulletproof";
   "Competitive";
   "Strong Jaw";
   "Refrigerate";
   "Sweet Veil";
   "Stance Change";
   "Gale Wings";
   "Mega Launcher";
   "Grass Pelt";
   "Symbiosis";
   "Tough Claws";
   "Pixilate";
   "Gooey";
   "Aerilate";
   "Parental Bond";
   "Dark Aura";
   "Fairy Aura";
   "Aura Break";
   "Primordial Sea";
   "Desolate Land";
   "Delta Stream";
   "Stamina";
   "Wimp Out";
   "Emergency Exit";
   "Water Compaction";
   "Merciless";
   "Shields Down";
   "Stakeout";
   "Water Bubble";
   "Steelworker";
   "Berserk";
   "Slush Rush";
   "Long Reach";
   "Liquid Voice";
   "Triage";
   "Galvanize";
   "Surge Surfer";
   "Schooling";
   "Disguise";
   "Battle Bond";
   "Power Construct";
   "Corrosion";
   "Comatose";
   "Queenly Majesty";
   "Innards Out";
   "Dancer";
   "Battery";
   "Fluffy";
   "Dazzling";
   "Soul-Heart";
   "Tangling Hair";
   "Receiver";
   "Power of Alchemy";
   "Beast Boost";
   "RKS System";
   "Electric Surge";
   "Psychic Surge";
   "Misty Surge";
   "Grassy Surge";
   "Full Metal Body";
   "Shadow Shield";
   "Prism Armor";
   "Neuroforce";
   "Intrepid Sword";
   "Dauntless Shield";
   "Libero";
   "Ball Fetch";
   "Cotton Down";
   "Propeller Tail";
   "Mirror Armor";
   "Gulp Missile";
   "Stalwart";
   "Steam Engine";
   "Punk Rock";
   "Sand Spit";
   "Ice Scales";
   "Ripen";
   "Ice Face";
   "Power Spot";
   "Mimicry";
   "Screen Cleaner";
   "Steely Spirit";
   "Perish Body";
   "Wandering Spirit";
   "Gorilla Tactics";
   "Neutralizing Gas";
   "Pastel Veil";
   "Hunger Switch";
   "Quick Draw";
   "Unseen Fist";
   "Curious Medicine";
   "Transistor";
   "Dragon’s Maw";
   "Chilling Neigh";
   "Grim Neigh";
   "As One";
   "As One";
   "Lingering Aroma";
   "Seed Sower";
   "Thermal Exchange";
   "Anger Shell";
   "Purifying Salt";
   "Well-Baked Body";
   "Wind Rider";
   "Guard Dog";
   "Rocky Payload";
   "Wind Power";
   "Zero to Hero";
   "Commander";
   "Electromorphosis";
   "Protosynthesis";
   "Quark Drive";
   "Good as Gold";
   "Vessel of Ruin";
   "Sword of Ruin";
   "Tablets of Ruin";
   "Beads of Ruin";
   "Orichalcum Pulse";
   "Hadron Engine";
   "Opportunist";
   "Cud Chew";
   "Sharpness";
   "Supreme Overlord";
   "Costar";
   "Toxic Debris";
   "Armor Tail";
   "Earth Eater";
   "Mycelium Might"].

Definition NATURES_EN : list string :=
  ["Hardy";
   "Lonely";
   "Brave";
   "Adamant";
   "Naughty";
   "Bold";
   "Docile";
   "Relaxed";
   "Impish";
   "Lax";
   "Timid";
   "Hasty";
   "Serious";
   "Jolly";
   "Naive";
   "Modest";
   "Mild";
   "Quiet";
   "Bashful";
   "Rash";
   "Calm";
   "Gentle";
   "Sassy";
   "Careful";
   "Quirky"].

Definition TYPES_EN : list string :=
  ["Normal";
   "Fighting";
   "Flying";
   "Poison";
   "Ground";
   "Rock";
   "Bug";
   "Ghost";
   "Steel";
   "Fire";
   "Water";
   "Grass";
   "Electric";
   "Psychic";
   "Ice";
   "Dragon";
   "Dark";
   "Fairy"].
