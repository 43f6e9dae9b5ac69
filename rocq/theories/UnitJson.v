(** * Units of /repo/assets/BalanceData/94137, written by tools/gen_unit_json.py *)
From Verif Require Import Base F32 BalanceJson.
#[local] Open Scope string_scope.
#[local] Open Scope Z_scope.
#[local] Open Scope list_scope.
(** /repo/assets/BalanceData/94137/Zealot.json *)
Definition uj_Zealot : json := (JObj [("@id", (JStr "Zealot"));
  ("abilities", (JObj [("ability", (JArr [(JObj [("@id", (JStr "stop"));
  ("@index", (JInt 41));
  ("command", (JArr [(JObj [("@id", (JStr "Stop"));
  ("@index", (JInt 0));
  ("meta", (JObj [("@hotkey", (JStr "6"));
  ("@icon", (JStr "btn-command-stop"));
  ("@index", JNull);
  ("@name", (JStr "5"));
  ("@race", JNull);
  ("@source", JNull);
  ("@tooltip", (JStr "7"));
  ("@type", (JStr "command"))]))])]))]); (JObj [("@id", (JStr "attack"));
  ("@index", (JInt 46));
  ("command", (JArr [(JObj [("@id", (JStr "Execute"));
  ("@index", (JInt 0));
  ("meta", (JObj [("@hotkey", (JStr "34"));
  ("@icon", (JStr "btn-command-attack"));
  ("@index", JNull);
  ("@name", (JStr "33"));
  ("@race", JNull);
  ("@source", JNull);
  ("@tooltip", (JStr "35"));
  ("@type", (JStr "command"))]))])]))]); (JObj [("@id", (JStr "move"));
  ("@index", (JInt 43));
  ("command", (JArr [(JObj [("@id", (JStr "Move"));
  ("@index", (JInt 0));
  ("meta", (JObj [("@hotkey", (JStr "9"));
  ("@icon", (JStr "btn-command-move"));
  ("@index", JNull);
  ("@name", (JStr "8"));
  ("@race", JNull);
  ("@source", JNull);
  ("@tooltip", (JStr "10"));
  ("@type", (JStr "command"))]))]); (JObj [("@id", (JStr "Patrol"));
  ("@index", (JInt 1));
  ("meta", (JObj [("@hotkey", (JStr "12"));
  ("@icon", (JStr "btn-command-patrol"));
  ("@index", JNull);
  ("@name", (JStr "11"));
  ("@race", JNull);
  ("@source", JNull);
  ("@tooltip", (JStr "13"));
  ("@type", (JStr "command"))]))]); (JObj [("@id", (JStr "HoldPos"));
  ("@index", (JInt 2));
  ("meta", (JObj [("@hotkey", (JStr "15"));
  ("@icon", (JStr "btn-command-holdposition"));
  ("@index", JNull);
  ("@name", (JStr "14"));
  ("@race", JNull);
  ("@source", JNull);
  ("@tooltip", (JStr "16"));
  ("@type", (JStr "command"))]))])]))]); (JObj [("@id", (JStr "ProgressRally"));
  ("@index", (JInt 105));
  ("command", (JArr [(JObj [("@id", (JStr "Rally1"));
  ("@index", (JInt 0));
  ("meta", (JObj [("@hotkey", (JStr "122"));
  ("@icon", (JStr "btn-ability-terran-setrallypoint"));
  ("@index", JNull);
  ("@name", (JStr "121"));
  ("@race", JNull);
  ("@source", JNull);
  ("@tooltip", (JStr "123"));
  ("@type", (JStr "command"))]))])]))]); (JObj [("@id", (JStr "Charge"));
  ("@index", (JInt 272));
  ("command", (JArr [(JObj [("@id", (JStr "Execute"));
  ("@index", (JInt 0));
  ("meta", (JObj [("@hotkey", (JStr "795"));
  ("@icon", (JStr "btn-ability-protoss-charge-color"));
  ("@index", JNull);
  ("@name", (JStr "794"));
  ("@race", JNull);
  ("@source", JNull);
  ("@tooltip", (JStr "796"));
  ("@type", (JStr "command"))]))])]))])]))]));
  ("armor", (JObj [("@max", (JInt 4));
  ("@start", (JInt 1))]));
  ("attributes", (JObj [("attribute", (JArr [(JObj [("@type", (JStr "Light"))]); (JObj [("@type", (JStr "Biological"))])]))]));
  ("builds", (JObj [("unit", (JArr []))]));
  ("cost", (JObj [("@cooldown", JNull);
  ("@energy", JNull);
  ("@life", JNull);
  ("@minerals", (JInt 100));
  ("@supply", (JFloat (S754_finite false 4503599627370496 (-51))));
  ("@time", (JFloat (S754_finite false 5348024557502464 (-47))));
  ("@vespene", JNull)]));
  ("life", (JObj [("@max", (JInt 100));
  ("@regenRate", JNull);
  ("@start", (JInt 100))]));
  ("meta", (JObj [("@hotkey", (JStr "675"));
  ("@icon", (JStr "btn-unit-protoss-zealot"));
  ("@index", (JInt 96));
  ("@name", (JStr "28"));
  ("@race", (JStr "Prot"));
  ("@source", (JStr "Liberty.SC2Mod"));
  ("@tooltip", (JStr "199"));
  ("@type", JNull)]));
  ("misc", (JObj [("@cargoCapacity", JNull);
  ("@cargoSize", (JInt 2));
  ("@count", JNull);
  ("@footprint", JNull);
  ("@radius", (JFloat (S754_finite false 4503599627370496 (-53))));
  ("@range", JNull);
  ("@sightRadius", (JFloat (S754_finite false 5066549580791808 (-49))));
  ("@speed", JNull);
  ("@supply", (JFloat (S754_finite true 4503599627370496 (-51))));
  ("@targets", JNull)]));
  ("movement", (JObj [("@acceleration", (JFloat (S754_finite false 8796093022208000 (-43))));
  ("@deceleration", (JFloat (S754_zero false)));
  ("@speed", (JFloat (S754_finite false 5066549580791808 (-51))));
  ("@turnRate", (JFloat (S754_finite false 8794718095802368 (-43))));
  ("@type", (JStr "Ground"))]));
  ("producer", (JObj [("@id", (JStr "Gateway"));
  ("@name", (JStr "667"))]));
  ("requires", (JObj [("unit", (JArr []))]));
  ("researches", JNull);
  ("score", (JObj [("@build", (JInt 100));
  ("@kill", (JInt 100))]));
  ("shieldArmor", (JObj [("@max", (JInt 3));
  ("@start", (JInt 0))]));
  ("shields", (JObj [("@delay", (JFloat (S754_finite false 5629499534213120 (-49))));
  ("@max", (JInt 50));
  ("@regenRate", (JFloat (S754_finite false 4503599627370496 (-51))));
  ("@start", (JInt 50))]));
  ("strengths", (JObj [("unit", (JArr [(JObj [("@id", (JStr "Marauder"));
  ("@name", (JStr "126"))]); (JObj [("@id", (JStr "Zergling"));
  ("@name", (JStr "27"))]); (JObj [("@id", (JStr "Immortal"));
  ("@name", (JStr "306"))])]))]));
  ("trains", (JObj [("unit", (JArr []))]));
  ("upgrades", (JObj [("upgrade", (JArr [(JObj [("@id", (JStr "ProtossGroundWeapons"));
  ("level", (JArr [(JObj [("@id", (JStr "ProtossGroundWeaponsLevel1"));
  ("@index", (JInt 42));
  ("cost", (JObj [("@cooldown", JNull);
  ("@energy", JNull);
  ("@life", JNull);
  ("@minerals", (JInt 100));
  ("@supply", JNull);
  ("@time", (JFloat (S754_finite false 5981343255101440 (-45))));
  ("@vespene", (JInt 100))]));
  ("meta", (JObj [("@hotkey", (JStr "39"));
  ("@icon", (JStr "BTN-Upgrade-Protoss-GroundWeaponsLevel1"));
  ("@index", JNull);
  ("@name", (JStr "38"));
  ("@race", JNull);
  ("@source", JNull);
  ("@tooltip", (JStr "40"));
  ("@type", JNull)]));
  ("requires", (JArr []))]); (JObj [("@id", (JStr "ProtossGroundWeaponsLevel2"));
  ("@index", (JInt 43));
  ("cost", (JObj [("@cooldown", JNull);
  ("@energy", JNull);
  ("@life", JNull);
  ("@minerals", (JInt 150));
  ("@supply", JNull);
  ("@time", (JFloat (S754_finite false 7124835347988480 (-45))));
  ("@vespene", (JInt 150))]));
  ("meta", (JObj [("@hotkey", (JStr "42"));
  ("@icon", (JStr "BTN-Upgrade-Protoss-GroundWeaponsLevel2"));
  ("@index", JNull);
  ("@name", (JStr "41"));
  ("@race", JNull);
  ("@source", JNull);
  ("@tooltip", (JStr "43"));
  ("@type", JNull)]));
  ("requires", (JArr [(JObj [("unit", (JArr [(JObj [("@id", (JStr "TwilightCouncil"));
  ("@name", (JStr "44"))])]));
  ("upgrade", (JArr [(JObj [("@id", (JStr "ProtossGroundWeaponsLevel1"));
  ("@name", (JStr "38"))])]))])]))]); (JObj [("@id", (JStr "ProtossGroundWeaponsLevel3"));
  ("@index", (JInt 44));
  ("cost", (JObj [("@cooldown", JNull);
  ("@energy", JNull);
  ("@life", JNull);
  ("@minerals", (JInt 200));
  ("@supply", JNull);
  ("@time", (JFloat (S754_finite false 8268327440875520 (-45))));
  ("@vespene", (JInt 200))]));
  ("meta", (JObj [("@hotkey", (JStr "46"));
  ("@icon", (JStr "BTN-Upgrade-Protoss-GroundWeaponsLevel3"));
  ("@index", JNull);
  ("@name", (JStr "45"));
  ("@race", JNull);
  ("@source", JNull);
  ("@tooltip", (JStr "47"));
  ("@type", JNull)]));
  ("requires", (JArr [(JObj [("unit", (JArr [(JObj [("@id", (JStr "TwilightCouncil"));
  ("@name", (JStr "44"))])]));
  ("upgrade", (JArr [(JObj [("@id", (JStr "ProtossGroundWeaponsLevel2"));
  ("@name", (JStr "41"))])]))])]))])]))]); (JObj [("@id", (JStr "ProtossGroundArmors"));
  ("level", (JArr [(JObj [("@id", (JStr "ProtossGroundArmorsLevel1"));
  ("@index", (JInt 45));
  ("cost", (JObj [("@cooldown", JNull);
  ("@energy", JNull);
  ("@life", JNull);
  ("@minerals", (JInt 100));
  ("@supply", JNull);
  ("@time", (JFloat (S754_finite false 5981343255101440 (-45))));
  ("@vespene", (JInt 100))]));
  ("meta", (JObj [("@hotkey", (JStr "49"));
  ("@icon", (JStr "BTN-Upgrade-Protoss-GroundArmorLevel1"));
  ("@index", JNull);
  ("@name", (JStr "48"));
  ("@race", JNull);
  ("@source", JNull);
  ("@tooltip", (JStr "50"));
  ("@type", JNull)]));
  ("requires", (JArr []))]); (JObj [("@id", (JStr "ProtossGroundArmorsLevel2"));
  ("@index", (JInt 46));
  ("cost", (JObj [("@cooldown", JNull);
  ("@energy", JNull);
  ("@life", JNull);
  ("@minerals", (JInt 150));
  ("@supply", JNull);
  ("@time", (JFloat (S754_finite false 7124835347988480 (-45))));
  ("@vespene", (JInt 150))]));
  ("meta", (JObj [("@hotkey", (JStr "52"));
  ("@icon", (JStr "BTN-Upgrade-Protoss-GroundArmorLevel2"));
  ("@index", JNull);
  ("@name", (JStr "51"));
  ("@race", JNull);
  ("@source", JNull);
  ("@tooltip", (JStr "53"));
  ("@type", JNull)]));
  ("requires", (JArr [(JObj [("unit", (JArr [(JObj [("@id", (JStr "TwilightCouncil"));
  ("@name", (JStr "44"))])]));
  ("upgrade", (JArr [(JObj [("@id", (JStr "ProtossGroundArmorsLevel1"));
  ("@name", (JStr "48"))])]))])]))]); (JObj [("@id", (JStr "ProtossGroundArmorsLevel3"));
  ("@index", (JInt 47));
  ("cost", (JObj [("@cooldown", JNull);
  ("@energy", JNull);
  ("@life", JNull);
  ("@minerals", (JInt 200));
  ("@supply", JNull);
  ("@time", (JFloat (S754_finite false 8268327440875520 (-45))));
  ("@vespene", (JInt 200))]));
  ("meta", (JObj [("@hotkey", (JStr "55"));
  ("@icon", (JStr "BTN-Upgrade-Protoss-GroundArmorLevel3"));
  ("@index", JNull);
  ("@name", (JStr "54"));
  ("@race", JNull);
  ("@source", JNull);
  ("@tooltip", (JStr "56"));
  ("@type", JNull)]));
  ("requires", (JArr [(JObj [("unit", (JArr [(JObj [("@id", (JStr "TwilightCouncil"));
  ("@name", (JStr "44"))])]));
  ("upgrade", (JArr [(JObj [("@id", (JStr "ProtossGroundArmorsLevel2"));
  ("@name", (JStr "51"))])]))])]))])]))]); (JObj [("@id", (JStr "ProtossShields"));
  ("level", (JArr [(JObj [("@id", (JStr "ProtossShieldsLevel1"));
  ("@index", (JInt 48));
  ("cost", (JObj [("@cooldown", JNull);
  ("@energy", JNull);
  ("@life", JNull);
  ("@minerals", (JInt 150));
  ("@supply", JNull);
  ("@time", (JFloat (S754_finite false 5981343255101440 (-45))));
  ("@vespene", (JInt 150))]));
  ("meta", (JObj [("@hotkey", (JStr "58"));
  ("@icon", (JStr "BTN-Upgrade-Protoss-ShieldsLevel1"));
  ("@index", JNull);
  ("@name", (JStr "57"));
  ("@race", JNull);
  ("@source", JNull);
  ("@tooltip", (JStr "59"));
  ("@type", JNull)]));
  ("requires", (JArr []))]); (JObj [("@id", (JStr "ProtossShieldsLevel2"));
  ("@index", (JInt 49));
  ("cost", (JObj [("@cooldown", JNull);
  ("@energy", JNull);
  ("@life", JNull);
  ("@minerals", (JInt 200));
  ("@supply", JNull);
  ("@time", (JFloat (S754_finite false 7124835347988480 (-45))));
  ("@vespene", (JInt 200))]));
  ("meta", (JObj [("@hotkey", (JStr "61"));
  ("@icon", (JStr "BTN-Upgrade-Protoss-ShieldsLevel2"));
  ("@index", JNull);
  ("@name", (JStr "60"));
  ("@race", JNull);
  ("@source", JNull);
  ("@tooltip", (JStr "62"));
  ("@type", JNull)]));
  ("requires", (JArr [(JObj [("unit", (JArr [(JObj [("@id", (JStr "TwilightCouncil"));
  ("@name", (JStr "44"))])]));
  ("upgrade", (JArr [(JObj [("@id", (JStr "ProtossShieldsLevel1"));
  ("@name", (JStr "57"))])]))])]))]); (JObj [("@id", (JStr "ProtossShieldsLevel3"));
  ("@index", (JInt 50));
  ("cost", (JObj [("@cooldown", JNull);
  ("@energy", JNull);
  ("@life", JNull);
  ("@minerals", (JInt 250));
  ("@supply", JNull);
  ("@time", (JFloat (S754_finite false 8268327440875520 (-45))));
  ("@vespene", (JInt 250))]));
  ("meta", (JObj [("@hotkey", (JStr "64"));
  ("@icon", (JStr "BTN-Upgrade-Protoss-ShieldsLevel3"));
  ("@index", JNull);
  ("@name", (JStr "63"));
  ("@race", JNull);
  ("@source", JNull);
  ("@tooltip", (JStr "65"));
  ("@type", JNull)]));
  ("requires", (JArr [(JObj [("unit", (JArr [(JObj [("@id", (JStr "TwilightCouncil"));
  ("@name", (JStr "44"))])]));
  ("upgrade", (JArr [(JObj [("@id", (JStr "ProtossShieldsLevel2"));
  ("@name", (JStr "60"))])]))])]))])]))]); (JObj [("@id", (JStr "Charge"));
  ("level", (JArr [(JObj [("@id", (JStr ""));
  ("@index", (JInt 0));
  ("cost", (JObj [("@cooldown", JNull);
  ("@energy", JNull);
  ("@life", JNull);
  ("@minerals", (JInt 100));
  ("@supply", JNull);
  ("@time", (JFloat (S754_finite false 4925812092436480 (-45))));
  ("@vespene", (JInt 100))]));
  ("meta", (JObj [("@hotkey", (JStr "723"));
  ("@icon", (JStr "btn-ability-protoss-charge-color"));
  ("@index", JNull);
  ("@name", (JStr "797"));
  ("@race", JNull);
  ("@source", JNull);
  ("@tooltip", (JStr "724"));
  ("@type", JNull)]));
  ("requires", (JArr []))])]))])]))]));
  ("weaknesses", (JObj [("unit", (JArr [(JObj [("@id", (JStr "HellionTank"));
  ("@name", (JStr "83"))]); (JObj [("@id", (JStr "Roach"));
  ("@name", (JStr "442"))]); (JObj [("@id", (JStr "Colossus"));
  ("@name", (JStr "21"))])]))]));
  ("weapons", (JObj [("weapon", (JArr [(JObj [("@id", (JStr "PsiBlades"));
  ("@index", (JInt 17));
  ("meta", (JObj [("@hotkey", JNull);
  ("@icon", (JStr "btn-upgrade-protoss-groundweaponslevel0"));
  ("@index", JNull);
  ("@name", (JStr "200"));
  ("@race", JNull);
  ("@source", JNull);
  ("@tooltip", (JStr "0"));
  ("@type", JNull)]));
  ("misc", (JObj [("@cargoCapacity", JNull);
  ("@cargoSize", JNull);
  ("@count", (JInt 2));
  ("@footprint", JNull);
  ("@radius", JNull);
  ("@range", (JFloat (S754_finite false 7205759511166976 (-56))));
  ("@sightRadius", JNull);
  ("@speed", (JFloat (S754_finite false 5404319767592960 (-52))));
  ("@supply", JNull);
  ("@targets", (JStr "ground"))]));
  ("score", JNull)])]))]))]).
(** /repo/assets/BalanceData/94137/Forge.json *)
Definition uj_Forge : json := (JObj [("@id", (JStr "Forge"));
  ("abilities", (JObj [("ability", (JArr [(JObj [("@id", (JStr "BuildInProgress"));
  ("@index", (JInt 129));
  ("command", (JArr [(JObj [("@id", (JStr "Cancel"));
  ("@index", (JInt 0));
  ("meta", (JObj [("@hotkey", (JStr "72"));
  ("@icon", (JStr "btn-command-cancel"));
  ("@index", JNull);
  ("@name", (JStr "71"));
  ("@race", JNull);
  ("@source", JNull);
  ("@tooltip", (JStr "73"));
  ("@type", (JStr "command"))]))])]))]); (JObj [("@id", (JStr "que5"));
  ("@index", (JInt 125));
  ("command", (JArr [(JObj [("@id", (JStr "CancelLast"));
  ("@index", (JInt 0));
  ("meta", (JObj [("@hotkey", (JStr "119"));
  ("@icon", (JStr "btn-command-cancel"));
  ("@index", JNull);
  ("@name", (JStr "212"));
  ("@race", JNull);
  ("@source", JNull);
  ("@tooltip", (JStr "213"));
  ("@type", (JStr "command"))]))])]))])]))]));
  ("armor", (JObj [("@max", (JInt 1));
  ("@start", (JInt 1))]));
  ("attributes", (JObj [("attribute", (JArr [(JObj [("@type", (JStr "Armored"))]); (JObj [("@type", (JStr "Structure"))])]))]));
  ("builds", (JObj [("unit", (JArr []))]));
  ("cost", (JObj [("@cooldown", JNull);
  ("@energy", JNull);
  ("@life", JNull);
  ("@minerals", (JInt 150));
  ("@supply", JNull);
  ("@time", (JFloat (S754_finite false 6333186975989760 (-47))));
  ("@vespene", JNull)]));
  ("life", (JObj [("@max", (JInt 400));
  ("@regenRate", JNull);
  ("@start", (JInt 400))]));
  ("meta", (JObj [("@hotkey", (JStr "697"));
  ("@icon", (JStr "btn-building-protoss-forge"));
  ("@index", (JInt 86));
  ("@name", (JStr "696"));
  ("@race", (JStr "Prot"));
  ("@source", (JStr "Liberty.SC2Mod"));
  ("@tooltip", (JStr "698"));
  ("@type", JNull)]));
  ("misc", (JObj [("@cargoCapacity", JNull);
  ("@cargoSize", (JInt 0));
  ("@count", JNull);
  ("@footprint", (JStr "Footprint3x3Contour"));
  ("@radius", (JFloat (S754_finite false 6755399441055744 (-52))));
  ("@range", JNull);
  ("@sightRadius", (JFloat (S754_finite false 5066549580791808 (-49))));
  ("@speed", JNull);
  ("@supply", (JFloat (S754_zero false)));
  ("@targets", JNull)]));
  ("movement", JNull);
  ("producer", (JObj [("@id", (JStr "Probe"));
  ("@name", (JStr "438"))]));
  ("requires", (JObj [("unit", (JArr [(JObj [("@id", (JStr "Nexus"));
  ("@name", (JStr "154"))])]))]));
  ("researches", (JObj [("upgrade", (JArr [(JObj [("@ability", (JInt 182));
  ("@id", (JStr "ProtossGroundWeaponsLevel1"));
  ("@index", (JInt 0));
  ("cost", (JObj [("@cooldown", JNull);
  ("@energy", JNull);
  ("@life", JNull);
  ("@minerals", (JInt 100));
  ("@supply", JNull);
  ("@time", (JFloat (S754_finite false 5981343255101440 (-45))));
  ("@vespene", (JInt 100))]));
  ("meta", (JObj [("@hotkey", (JStr "39"));
  ("@icon", (JStr "BTN-Upgrade-Protoss-GroundWeaponsLevel1"));
  ("@index", JNull);
  ("@name", (JStr "699"));
  ("@race", JNull);
  ("@source", JNull);
  ("@tooltip", (JStr "40"));
  ("@type", (JStr "command"))]))]); (JObj [("@ability", (JInt 182));
  ("@id", (JStr "ProtossGroundWeaponsLevel2"));
  ("@index", (JInt 1));
  ("cost", (JObj [("@cooldown", JNull);
  ("@energy", JNull);
  ("@life", JNull);
  ("@minerals", (JInt 150));
  ("@supply", JNull);
  ("@time", (JFloat (S754_finite false 7124835347988480 (-45))));
  ("@vespene", (JInt 150))]));
  ("meta", (JObj [("@hotkey", (JStr "42"));
  ("@icon", (JStr "BTN-Upgrade-Protoss-GroundWeaponsLevel2"));
  ("@index", JNull);
  ("@name", (JStr "700"));
  ("@race", JNull);
  ("@source", JNull);
  ("@tooltip", (JStr "43"));
  ("@type", (JStr "command"))]))]); (JObj [("@ability", (JInt 182));
  ("@id", (JStr "ProtossGroundWeaponsLevel3"));
  ("@index", (JInt 2));
  ("cost", (JObj [("@cooldown", JNull);
  ("@energy", JNull);
  ("@life", JNull);
  ("@minerals", (JInt 200));
  ("@supply", JNull);
  ("@time", (JFloat (S754_finite false 8268327440875520 (-45))));
  ("@vespene", (JInt 200))]));
  ("meta", (JObj [("@hotkey", (JStr "46"));
  ("@icon", (JStr "BTN-Upgrade-Protoss-GroundWeaponsLevel3"));
  ("@index", JNull);
  ("@name", (JStr "701"));
  ("@race", JNull);
  ("@source", JNull);
  ("@tooltip", (JStr "47"));
  ("@type", (JStr "command"))]))]); (JObj [("@ability", (JInt 182));
  ("@id", (JStr "ProtossGroundArmorsLevel1"));
  ("@index", (JInt 3));
  ("cost", (JObj [("@cooldown", JNull);
  ("@energy", JNull);
  ("@life", JNull);
  ("@minerals", (JInt 100));
  ("@supply", JNull);
  ("@time", (JFloat (S754_finite false 5981343255101440 (-45))));
  ("@vespene", (JInt 100))]));
  ("meta", (JObj [("@hotkey", (JStr "49"));
  ("@icon", (JStr "BTN-Upgrade-Protoss-GroundArmorLevel1"));
  ("@index", JNull);
  ("@name", (JStr "702"));
  ("@race", JNull);
  ("@source", JNull);
  ("@tooltip", (JStr "50"));
  ("@type", (JStr "command"))]))]); (JObj [("@ability", (JInt 182));
  ("@id", (JStr "ProtossGroundArmorsLevel2"));
  ("@index", (JInt 4));
  ("cost", (JObj [("@cooldown", JNull);
  ("@energy", JNull);
  ("@life", JNull);
  ("@minerals", (JInt 150));
  ("@supply", JNull);
  ("@time", (JFloat (S754_finite false 7124835347988480 (-45))));
  ("@vespene", (JInt 150))]));
  ("meta", (JObj [("@hotkey", (JStr "52"));
  ("@icon", (JStr "BTN-Upgrade-Protoss-GroundArmorLevel2"));
  ("@index", JNull);
  ("@name", (JStr "703"));
  ("@race", JNull);
  ("@source", JNull);
  ("@tooltip", (JStr "53"));
  ("@type", (JStr "command"))]))]); (JObj [("@ability", (JInt 182));
  ("@id", (JStr "ProtossGroundArmorsLevel3"));
  ("@index", (JInt 5));
  ("cost", (JObj [("@cooldown", JNull);
  ("@energy", JNull);
  ("@life", JNull);
  ("@minerals", (JInt 200));
  ("@supply", JNull);
  ("@time", (JFloat (S754_finite false 8268327440875520 (-45))));
  ("@vespene", (JInt 200))]));
  ("meta", (JObj [("@hotkey", (JStr "55"));
  ("@icon", (JStr "BTN-Upgrade-Protoss-GroundArmorLevel3"));
  ("@index", JNull);
  ("@name", (JStr "704"));
  ("@race", JNull);
  ("@source", JNull);
  ("@tooltip", (JStr "56"));
  ("@type", (JStr "command"))]))]); (JObj [("@ability", (JInt 182));
  ("@id", (JStr "ProtossShieldsLevel1"));
  ("@index", (JInt 6));
  ("cost", (JObj [("@cooldown", JNull);
  ("@energy", JNull);
  ("@life", JNull);
  ("@minerals", (JInt 150));
  ("@supply", JNull);
  ("@time", (JFloat (S754_finite false 5981343255101440 (-45))));
  ("@vespene", (JInt 150))]));
  ("meta", (JObj [("@hotkey", (JStr "58"));
  ("@icon", (JStr "BTN-Upgrade-Protoss-ShieldsLevel1"));
  ("@index", JNull);
  ("@name", (JStr "705"));
  ("@race", JNull);
  ("@source", JNull);
  ("@tooltip", (JStr "59"));
  ("@type", (JStr "command"))]))]); (JObj [("@ability", (JInt 182));
  ("@id", (JStr "ProtossShieldsLevel2"));
  ("@index", (JInt 7));
  ("cost", (JObj [("@cooldown", JNull);
  ("@energy", JNull);
  ("@life", JNull);
  ("@minerals", (JInt 200));
  ("@supply", JNull);
  ("@time", (JFloat (S754_finite false 7124835347988480 (-45))));
  ("@vespene", (JInt 200))]));
  ("meta", (JObj [("@hotkey", (JStr "61"));
  ("@icon", (JStr "BTN-Upgrade-Protoss-ShieldsLevel2"));
  ("@index", JNull);
  ("@name", (JStr "706"));
  ("@race", JNull);
  ("@source", JNull);
  ("@tooltip", (JStr "62"));
  ("@type", (JStr "command"))]))]); (JObj [("@ability", (JInt 182));
  ("@id", (JStr "ProtossShieldsLevel3"));
  ("@index", (JInt 8));
  ("cost", (JObj [("@cooldown", JNull);
  ("@energy", JNull);
  ("@life", JNull);
  ("@minerals", (JInt 250));
  ("@supply", JNull);
  ("@time", (JFloat (S754_finite false 8268327440875520 (-45))));
  ("@vespene", (JInt 250))]));
  ("meta", (JObj [("@hotkey", (JStr "64"));
  ("@icon", (JStr "BTN-Upgrade-Protoss-ShieldsLevel3"));
  ("@index", JNull);
  ("@name", (JStr "707"));
  ("@race", JNull);
  ("@source", JNull);
  ("@tooltip", (JStr "65"));
  ("@type", (JStr "command"))]))])]))]));
  ("score", (JObj [("@build", (JInt 150));
  ("@kill", (JInt 150))]));
  ("shieldArmor", (JObj [("@max", (JInt 3));
  ("@start", (JInt 0))]));
  ("shields", (JObj [("@delay", (JFloat (S754_finite false 5629499534213120 (-49))));
  ("@max", (JInt 400));
  ("@regenRate", (JFloat (S754_finite false 4503599627370496 (-51))));
  ("@start", (JInt 400))]));
  ("strengths", (JObj [("unit", (JArr []))]));
  ("trains", (JObj [("unit", (JArr []))]));
  ("upgrades", (JObj [("upgrade", (JArr [(JObj [("@id", (JStr "ProtossShields"));
  ("level", (JArr [(JObj [("@id", (JStr "ProtossShieldsLevel1"));
  ("@index", (JInt 48));
  ("cost", (JObj [("@cooldown", JNull);
  ("@energy", JNull);
  ("@life", JNull);
  ("@minerals", (JInt 150));
  ("@supply", JNull);
  ("@time", (JFloat (S754_finite false 5981343255101440 (-45))));
  ("@vespene", (JInt 150))]));
  ("meta", (JObj [("@hotkey", (JStr "58"));
  ("@icon", (JStr "BTN-Upgrade-Protoss-ShieldsLevel1"));
  ("@index", JNull);
  ("@name", (JStr "57"));
  ("@race", JNull);
  ("@source", JNull);
  ("@tooltip", (JStr "59"));
  ("@type", JNull)]));
  ("requires", (JArr []))]); (JObj [("@id", (JStr "ProtossShieldsLevel2"));
  ("@index", (JInt 49));
  ("cost", (JObj [("@cooldown", JNull);
  ("@energy", JNull);
  ("@life", JNull);
  ("@minerals", (JInt 200));
  ("@supply", JNull);
  ("@time", (JFloat (S754_finite false 7124835347988480 (-45))));
  ("@vespene", (JInt 200))]));
  ("meta", (JObj [("@hotkey", (JStr "61"));
  ("@icon", (JStr "BTN-Upgrade-Protoss-ShieldsLevel2"));
  ("@index", JNull);
  ("@name", (JStr "60"));
  ("@race", JNull);
  ("@source", JNull);
  ("@tooltip", (JStr "62"));
  ("@type", JNull)]));
  ("requires", (JArr [(JObj [("unit", (JArr [(JObj [("@id", (JStr "TwilightCouncil"));
  ("@name", (JStr "44"))])]));
  ("upgrade", (JArr [(JObj [("@id", (JStr "ProtossShieldsLevel1"));
  ("@name", (JStr "57"))])]))])]))]); (JObj [("@id", (JStr "ProtossShieldsLevel3"));
  ("@index", (JInt 50));
  ("cost", (JObj [("@cooldown", JNull);
  ("@energy", JNull);
  ("@life", JNull);
  ("@minerals", (JInt 250));
  ("@supply", JNull);
  ("@time", (JFloat (S754_finite false 8268327440875520 (-45))));
  ("@vespene", (JInt 250))]));
  ("meta", (JObj [("@hotkey", (JStr "64"));
  ("@icon", (JStr "BTN-Upgrade-Protoss-ShieldsLevel3"));
  ("@index", JNull);
  ("@name", (JStr "63"));
  ("@race", JNull);
  ("@source", JNull);
  ("@tooltip", (JStr "65"));
  ("@type", JNull)]));
  ("requires", (JArr [(JObj [("unit", (JArr [(JObj [("@id", (JStr "TwilightCouncil"));
  ("@name", (JStr "44"))])]));
  ("upgrade", (JArr [(JObj [("@id", (JStr "ProtossShieldsLevel2"));
  ("@name", (JStr "60"))])]))])]))])]))])]))]));
  ("weaknesses", (JObj [("unit", (JArr []))]));
  ("weapons", (JObj [("weapon", (JArr []))]))]).
