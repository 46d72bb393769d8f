(** The names of the codes in the description files the project ships,
    conf/*/desc/gcode_desc_en.json and conf/*/desc/mcode_desc_en.json, and one of
    those files with its texts.  Written out from those files by a script; a test
    of the hypotheses of the theorems, not part of the code. *)
From Verif Require Import Model.Base Model.MacrosDesc.

(** conf/fanuc_lathe_system_a/desc/gcode_desc_en.json. *)
Definition fanuc_lathe_system_a_gcodes : list string := [
  "0"; "1"; "2"; "2.2"; "2.3"; "2.4"; "3"; "3.2"; "3.3"; "3.4"; "4"; "5"; "5.1"; "5.4"; "6.2"; "7"; "7.1";
  "8"; "9"; "10"; "10.6"; "10.9"; "11"; "12.1"; "13.1"; "15"; "16"; "17"; "18"; "19"; "20"; "21"; "22"; "23";
  "25"; "26"; "27"; "28"; "29"; "30"; "30.1"; "31"; "31.8"; "32"; "34"; "35"; "36"; "37"; "37.1"; "37.2";
  "38"; "39"; "40"; "41"; "41.2"; "41.3"; "41.4"; "41.5"; "41.6"; "42"; "42.2"; "42.4"; "42.5"; "42.6"; "43";
  "43.1"; "43.4"; "43.5"; "43.7"; "44"; "44.7"; "49"; "49.1"; "50"; "50.3"; "50.1"; "50.2"; "51.1"; "51.2";
  "52"; "53"; "53.1"; "54"; "54.1"; "55"; "56"; "57"; "58"; "59"; "60"; "61"; "62"; "63"; "64"; "65"; "66";
  "66.1"; "67"; "68"; "68.1"; "68.2"; "69"; "69.1"; "70"; "71"; "72"; "72.1"; "72.2"; "73"; "74"; "75"; "76";
  "80"; "80.5"; "80.8"; "81"; "81.5"; "81.8"; "82"; "83"; "83.1"; "83.5"; "83.6"; "84"; "84.2"; "85"; "87";
  "87.5"; "87.6"; "88"; "89"; "90"; "91.1"; "92"; "93"; "94"; "96"; "97"; "98"; "99"; "107"; "112"; "113";
  "250"; "251"].

(** conf/fanuc_lathe_system_b/desc/gcode_desc_en.json. *)
Definition fanuc_lathe_system_b_gcodes : list string := [
  "0"; "1"; "2"; "2.2"; "2.3"; "2.4"; "3"; "3.2"; "3.3"; "3.4"; "4"; "5"; "5.1"; "5.4"; "6.2"; "7"; "7.1";
  "8"; "9"; "10"; "10.6"; "10.9"; "11"; "12.1"; "13.1"; "15"; "16"; "17"; "18"; "19"; "20"; "21"; "22"; "23";
  "25"; "26"; "27"; "28"; "29"; "30"; "30.1"; "31"; "31.8"; "33"; "34"; "35"; "36"; "37"; "37.1"; "37.2";
  "38"; "39"; "40"; "41"; "41.2"; "41.3"; "41.4"; "41.5"; "41.6"; "42"; "42.2"; "42.4"; "42.5"; "42.6"; "43";
  "43.1"; "43.4"; "43.5"; "43.7"; "44"; "44.7"; "49"; "49.1"; "50"; "50.1"; "50.2"; "51"; "51.1"; "51.2";
  "52"; "53"; "53.1"; "54"; "54.1"; "55"; "56"; "57"; "58"; "59"; "60"; "61"; "62"; "63"; "64"; "65"; "66";
  "66.1"; "67"; "68"; "68.1"; "68.2"; "69"; "69.1"; "70"; "71"; "72"; "72.1"; "72.2"; "73"; "74"; "75"; "76";
  "80"; "80.5"; "80.8"; "81"; "81.5"; "81.8"; "82"; "83"; "83.1"; "83.5"; "83.6"; "84"; "84.2"; "85"; "87";
  "87.5"; "87.6"; "88"; "89"; "77"; "78"; "79"; "90"; "91"; "91.1"; "93"; "94"; "95"; "96"; "97"; "98"; "99";
  "107"; "112"; "113"; "250"; "251"].

(** conf/fanuc_lathe_system_c/desc/gcode_desc_en.json. *)
Definition fanuc_lathe_system_c_gcodes : list string := [
  "0"; "1"; "2"; "2.2"; "2.3"; "2.4"; "3"; "3.2"; "3.3"; "3.4"; "4"; "5"; "5.1"; "5.4"; "6.2"; "7"; "7.1";
  "8"; "9"; "10"; "10.6"; "10.9"; "11"; "12.1"; "13.1"; "15"; "16"; "17"; "18"; "19"; "20"; "21"; "22"; "23";
  "24"; "25"; "26"; "27"; "28"; "29"; "30"; "30.1"; "31"; "31.8"; "33"; "34"; "35"; "36"; "37"; "37.1";
  "37.2"; "38"; "39"; "40"; "41"; "41.2"; "41.3"; "41.4"; "41.5"; "41.6"; "42"; "42.2"; "42.4"; "42.5";
  "42.6"; "43"; "43.1"; "43.4"; "43.5"; "43.7"; "44"; "44.7"; "49"; "49.1"; "50"; "50.1"; "50.2"; "51";
  "51.1"; "51.2"; "52"; "53"; "53.1"; "54"; "54.1"; "55"; "56"; "57"; "58"; "59"; "60"; "61"; "62"; "63";
  "64"; "65"; "66"; "66.1"; "67"; "68"; "68.1"; "68.2"; "69"; "69.1"; "70"; "71"; "72"; "73"; "74"; "72.1";
  "72.2"; "75"; "76"; "77"; "78"; "80"; "80.5"; "80.8"; "81"; "81.5"; "81.8"; "82"; "83"; "83.1"; "83.5";
  "83.6"; "84"; "84.2"; "85"; "87"; "87.5"; "87.6"; "88"; "89"; "90"; "91"; "91.1"; "93"; "94"; "95"; "96";
  "97"; "98"; "99"; "107"; "112"; "113"; "250"; "251"].

(** conf/fanuc_mill/desc/gcode_desc_en.json. *)
Definition fanuc_mill_gcodes : list string := [
  "0"; "1"; "2"; "2.2"; "2.3"; "2.4"; "3"; "3.2"; "3.3"; "3.4"; "4"; "5"; "5.1"; "5.4"; "6.2"; "7"; "7.1";
  "8"; "9"; "10"; "10.6"; "10.9"; "11"; "12.1"; "13.1"; "15"; "16"; "17"; "18"; "19"; "20"; "21"; "22"; "23";
  "25"; "26"; "27"; "28"; "29"; "30"; "30.1"; "31"; "31.8"; "33"; "34"; "35"; "36"; "37"; "38"; "39"; "40";
  "40.1"; "41"; "41.1"; "41.2"; "41.3"; "41.4"; "41.5"; "41.6"; "42"; "42.1"; "42.2"; "42.4"; "42.5"; "42.6";
  "43"; "43.1"; "43.4"; "43.5"; "44"; "45"; "46"; "47"; "48"; "49"; "49.1"; "50"; "50.1"; "50.2"; "51";
  "51.1"; "51.2"; "52"; "53"; "53.1"; "54"; "54.1"; "55"; "56"; "57"; "58"; "59"; "60"; "61"; "62"; "63";
  "64"; "65"; "66"; "66.1"; "67"; "68"; "68.2"; "69"; "70"; "71"; "72.1"; "72.2"; "73"; "74"; "76"; "80";
  "80.5"; "80.8"; "81"; "81.1"; "81.5"; "81.8"; "82"; "83"; "84"; "84.2"; "84.3"; "85"; "86"; "87"; "88";
  "89"; "90"; "91"; "91.1"; "92"; "92.1"; "93"; "94"; "95"; "96"; "97"; "98"; "99"; "107"; "112"; "113"].

(** conf/fanuc_millturn_system_a/desc/gcode_desc_en.json. *)
Definition fanuc_millturn_system_a_gcodes : list string := [
  "0"; "1"; "2"; "3"; "4"; "5"; "5.1"; "6.2"; "7.1"; "8"; "9"; "10"; "10.9"; "11"; "12.1"; "13.1"; "17";
  "18"; "19"; "20"; "21"; "22"; "23"; "27"; "28"; "30"; "30.1"; "31"; "32"; "34"; "35"; "36"; "38"; "40";
  "41"; "41.2"; "41.6"; "41.8"; "42"; "42.2"; "42.6"; "42.8"; "43"; "43.4"; "43.5"; "46.8"; "49"; "50.1";
  "51.1"; "50.2"; "51.2"; "50"; "50.3"; "52"; "53"; "53.1"; "54.4"; "54"; "54.1"; "55"; "56"; "57"; "58";
  "59"; "61"; "62"; "63"; "64"; "65"; "66"; "66.1"; "67"; "68"; "68.1"; "68.2"; "69"; "69.1"; "70"; "71";
  "72"; "73"; "74"; "75"; "76"; "80"; "80.4"; "81.4"; "83"; "83.5"; "83.6"; "84"; "85"; "87"; "87.5"; "87.6";
  "88"; "89"; "90"; "92"; "94"; "96"; "97"; "98"; "99"; "107"; "112"; "113"; "251"; "320"; "325"; "330";
  "332"; "334"; "335"; "336"; "337"; "338"; "339"; "340"; "341"; "360"; "361"; "362"; "363"; "364"; "366";
  "367"; "368"; "369"; "400"; "412"; "413"; "414"; "415"; "419"; "424"; "425"; "426"; "427"; "428"; "429";
  "430"; "431"; "432"; "433"; "434"; "435"; "436"; "437"; "438"; "439"; "451"; "452"; "453"; "454"; "455";
  "456"; "457"; "460"; "461"; "462"; "463"; "464"; "478"; "479"; "480"; "481"; "482"; "483"; "484"; "485";
  "486"; "487"; "488"; "489"; "490"; "491"; "492"; "493"; "494"; "495"; "496"; "498"; "499"].

(** conf/fanuc_millturn_system_b/desc/gcode_desc_en.json. *)
Definition fanuc_millturn_system_b_gcodes : list string := [
  "0"; "1"; "2"; "3"; "4"; "5"; "5.1"; "6.2"; "7.1"; "8"; "9"; "10"; "10.9"; "11"; "12.1"; "13.1"; "17";
  "18"; "19"; "20"; "21"; "22"; "23"; "27"; "28"; "30"; "30.1"; "31"; "33"; "34"; "35"; "36"; "38"; "40";
  "41"; "41.2"; "41.6"; "41.8"; "42"; "42.2"; "42.6"; "42.8"; "43"; "43.4"; "43.5"; "46.8"; "49"; "50.1";
  "51.1"; "50.2"; "51.2"; "50"; "51"; "50.3"; "52"; "53"; "53.1"; "54.4"; "54"; "54.1"; "55"; "56"; "57";
  "58"; "59"; "61"; "62"; "63"; "64"; "65"; "66"; "66.1"; "67"; "68"; "68.1"; "68.2"; "69"; "69.1"; "70";
  "71"; "72"; "73"; "74"; "75"; "76"; "77"; "78"; "79"; "80"; "80.4"; "81.4"; "83"; "83.5"; "83.6"; "84";
  "85"; "87"; "87.5"; "87.6"; "88"; "89"; "90"; "91"; "92"; "94"; "95"; "96"; "97"; "98"; "99"; "107"; "112";
  "113"; "251"; "320"; "325"; "330"; "332"; "334"; "335"; "336"; "337"; "338"; "339"; "340"; "341"; "360";
  "361"; "362"; "363"; "364"; "366"; "367"; "368"; "369"; "400"; "412"; "413"; "414"; "415"; "419"; "424";
  "425"; "426"; "427"; "428"; "429"; "430"; "431"; "432"; "433"; "434"; "435"; "436"; "437"; "438"; "439";
  "451"; "452"; "453"; "454"; "455"; "456"; "457"; "460"; "461"; "462"; "463"; "464"; "478"; "479"; "480";
  "481"; "482"; "483"; "484"; "485"; "486"; "487"; "488"; "489"; "490"; "491"; "492"; "493"; "494"; "495";
  "496"; "498"; "499"].

(** conf/generic_lathe/desc/gcode_desc_en.json. *)
Definition generic_lathe_gcodes : list string := [
  "0"; "1"; "2"; "3"; "4"; "9"; "10"; "11"; "17"; "18"; "19"; "20"; "21"; "27"; "28"; "29"; "30"; "31"; "32";
  "40"; "41"; "42"; "43"; "44"; "49"; "50"; "51"; "52"; "53"; "54"; "55"; "56"; "57"; "58"; "59"; "61"; "62";
  "63"; "64"; "65"; "70"; "71"; "72"; "73"; "74"; "75"; "76"; "80"; "81"; "82"; "83"; "84"; "86"; "87"; "88";
  "89"; "90"; "91"; "92"; "94"; "96"; "97"; "98"; "99"].

(** conf/generic_mill/desc/gcode_desc_en.json. *)
Definition generic_mill_gcodes : list string := [
  "0"; "1"; "2"; "3"; "4"; "5"; "9"; "10"; "11"; "15"; "16"; "17"; "18"; "19"; "20"; "21"; "27"; "28"; "29";
  "30"; "31"; "32"; "40"; "41"; "42"; "43"; "44"; "49"; "50"; "51"; "52"; "53"; "54"; "55"; "56"; "57"; "58";
  "59"; "61"; "62"; "63"; "64"; "65"; "68"; "69"; "73"; "74"; "76"; "80"; "81"; "82"; "83"; "84"; "85"; "86";
  "87"; "88"; "89"; "90"; "91"; "92"; "94"; "95"; "96"; "97"; "98"; "99"].

(** conf/haas_lathe/desc/gcode_desc_en.json. *)
Definition haas_lathe_gcodes : list string := [
  "0"; "1"; "2"; "3"; "4"; "10"; "11"; "20"; "21"; "27"; "28"; "31"; "32"; "33"; "40"; "41"; "42"; "50";
  "54"; "55"; "56"; "57"; "58"; "59"; "65"; "66"; "67"; "70"; "71"; "81"; "92"; "94"; "95"; "96"; "97"; "98";
  "99"; "90"; "91"; "2.2"].

(** conf/haas_mill/desc/gcode_desc_en.json. *)
Definition haas_mill_gcodes : list string := [
  "0"; "1"; "2"; "3"; "4"; "9"; "10"; "12"; "13"; "17"; "18"; "19"; "20"; "21"; "28"; "29"; "31"; "35"; "36";
  "37"; "40"; "41"; "42"; "43"; "44"; "47"; "49"; "50"; "51"; "52"; "53"; "54"; "55"; "56"; "57"; "58"; "59";
  "60"; "61"; "64"; "65"; "68"; "69"; "70"; "71"; "72"; "73"; "74"; "76"; "77"; "80"; "81"; "82"; "83"; "84";
  "85"; "86"; "89"; "90"; "91"; "92"; "93"; "94"; "95"; "98"; "99"; "100"; "101"; "103"; "107"; "110"; "111";
  "112"; "113"; "114"; "115"; "116"; "117"; "118"; "119"; "120"; "121"; "122"; "123"; "124"; "125"; "126";
  "127"; "128"; "129"; "136"; "141"; "143"; "150"; "154"; "174"; "184"; "187"; "234"; "253"; "254"; "255";
  "266"; "268"; "269"].

(** conf/makino_mill/desc/gcode_desc_en.json. *)
Definition makino_mill_gcodes : list string := [
  "0"; "1"; "2"; "3"; "4"; "7.1"; "9"; "10"; "15"; "16"; "17"; "18"; "19"; "20"; "21"; "22"; "28"; "30";
  "40"; "41"; "42"; "43"; "49"; "50"; "51"; "52"; "53"; "54"; "54.1"; "55"; "56"; "57"; "58"; "59"; "60";
  "61"; "62"; "64"; "65"; "66"; "67"; "68"; "69"; "73"; "74"; "76"; "80"; "81"; "82"; "83"; "84"; "84.2";
  "84.3"; "85"; "86"; "87"; "88"; "89"; "90"; "91"; "98"; "99"].

(** conf/fanuc_lathe_system_a/desc/mcode_desc_en.json. *)
Definition fanuc_lathe_system_a_mcodes : list string := [
  "0"; "1"; "2"; "3"; "4"; "5"; "8"; "9"; "29"; "30"; "40"; "41"; "42"; "68"; "69"; "78"; "79"; "94"; "95";
  "98"; "99"].

(** conf/fanuc_lathe_system_b/desc/mcode_desc_en.json. *)
Definition fanuc_lathe_system_b_mcodes : list string := [
  "0"; "1"; "2"; "3"; "4"; "5"; "8"; "9"; "29"; "30"; "40"; "41"; "42"; "68"; "69"; "78"; "79"; "94"; "95";
  "98"; "99"].

(** conf/fanuc_lathe_system_c/desc/mcode_desc_en.json. *)
Definition fanuc_lathe_system_c_mcodes : list string := [
  "0"; "1"; "2"; "3"; "4"; "5"; "8"; "9"; "29"; "30"; "40"; "41"; "42"; "68"; "69"; "78"; "79"; "94"; "95";
  "98"; "99"].

(** conf/fanuc_mill/desc/mcode_desc_en.json. *)
Definition fanuc_mill_mcodes : list string := [
  "0"; "1"; "2"; "3"; "4"; "5"; "6"; "7"; "8"; "9"; "19"; "28"; "29"; "30"; "41"; "42"; "94"; "95"; "96";
  "98"; "99"].

(** conf/fanuc_millturn_system_a/desc/mcode_desc_en.json. *)
Definition fanuc_millturn_system_a_mcodes : list string := [
  "0"; "1"; "2"; "3"; "4"; "5"; "6"; "8"; "9"; "10"; "11"; "13"; "14"; "17"; "18"; "19"; "20"; "23"; "24";
  "25"; "26"; "27"; "28"; "29"; "30"; "31"; "32"; "33"; "34"; "35"; "36"; "37"; "38"; "40"; "41"; "42"; "43";
  "44"; "45"; "46"; "47"; "48"; "49"; "50"; "51"; "52"; "53"; "55"; "57"; "58"; "59"; "60"; "61"; "62"; "63";
  "64"; "65"; "66"; "67"; "68"; "69"; "70"; "71"; "72"; "73"; "74"; "75"; "76"; "78"; "79"; "80"; "81"; "82";
  "83"; "84"; "85"; "86"; "87"; "88"; "89"; "90"; "91"; "92"; "93"; "98"; "99"; "100"; "101"; "102"; "103";
  "104"; "105"; "106"; "107"; "108"; "109"; "110"; "111"; "112"; "113"; "114"; "115"; "116"; "117"; "118";
  "119"; "120"; "121"; "122"; "123"; "124"; "125"; "126"; "127"; "128"; "129"; "130"; "131"; "132"; "133";
  "134"; "135"; "136"; "137"; "138"; "139"; "140"; "141"; "142"; "143"; "144"; "145"; "146"; "147"; "148";
  "149"; "150"; "151"; "152"; "153"; "154"; "155"; "156"; "157"; "158"; "159"; "160"; "161"; "162"; "163";
  "164"; "165"; "166"; "167"; "168"; "169"; "170"; "171"; "172"; "173"; "174"; "175"; "176"; "177"; "178";
  "179"; "180"; "181"; "182"; "183"; "184"; "185"; "186"; "187"; "188"; "189"; "190"; "191"; "192"; "193";
  "194"; "195"; "196"; "197"; "198"; "200"; "201"; "203"; "204"; "206"; "207"; "210"; "211"; "219"; "220";
  "221"; "222"; "223"; "224"; "225"; "234"; "235"; "242"; "243"; "245"; "246"; "250"; "251"; "252"; "253";
  "255"; "257"; "258"; "259"; "265"; "266"; "268"; "269"; "271"; "272"; "273"; "274"; "278"; "279"; "283";
  "284"; "285"; "286"; "290"; "291"; "300"; "301"; "302"; "303"; "304"; "305"; "314"; "315"; "317"; "318";
  "319"; "329"; "337"; "340"; "341"; "342"; "343"; "344"; "345"; "346"; "347"; "348"; "349"; "350"; "351";
  "360"; "361"; "364"; "365"; "367"; "368"; "369"; "380"; "381"; "382"; "383"; "384"; "387"; "395"; "396";
  "397"; "398"; "399"; "400"; "401"; "402"; "403"; "404"; "405"; "406"; "407"; "408"; "409"; "410"; "411";
  "412"; "413"; "414"; "415"; "416"; "417"; "418"; "419"; "420"; "421"; "422"; "423"; "424"; "425"; "426";
  "427"; "428"; "429"; "430"; "431"; "434"; "435"; "436"; "437"; "440"; "441"; "442"; "443"; "444"; "445";
  "446"; "447"; "448"; "449"; "456"; "457"; "458"; "459"; "460"; "461"; "462"; "463"; "464"; "465"; "466";
  "468"; "469"; "471"; "472"; "473"; "474"; "475"; "476"; "477"; "478"; "479"; "480"; "481"; "482"; "483";
  "484"; "485"; "486"; "487"; "488"; "489"; "490"; "491"; "492"; "493"; "494"; "495"; "496"; "497"; "498";
  "499"; "556"; "557"; "558"; "559"; "560"; "561"; "562"; "563"; "564"; "570"; "571"; "578"; "579"; "580";
  "581"; "582"; "583"; "584"; "585"; "588"; "589"; "590"; "591"; "592"; "593"; "594"; "595"; "608"; "609";
  "610"; "611"; "612"; "613"; "617"; "618"; "619"; "620"; "625"; "626"; "641"; "642"; "643"; "649"; "650";
  "651"; "652"; "653"; "654"; "655"; "656"; "657"; "658"; "659"; "660"; "667"; "668"; "675"; "676"; "677";
  "678"; "684"; "685"; "690"; "712"; "713"; "752"; "754"; "755"; "756"; "757"; "845"; "846"; "2000"; "2001";
  "2002"; "2003"; "2004"; "2005"; "2006"; "2007"; "2008"; "2009"; "2010"; "2011"; "2012"; "2013"; "2014";
  "2015"; "2016"; "2017"; "2018"; "2019"; "2020"; "2030"; "2031"; "2032"; "2035"; "2036"; "2040"; "2041";
  "2042"; "2043"; "2044"; "2045"; "2046"; "2047"; "2066"; "2067"; "2073"; "2076"; "2077"; "2086"; "2087";
  "2088"; "2117"; "2118"; "2200"].

(** conf/fanuc_millturn_system_b/desc/mcode_desc_en.json. *)
Definition fanuc_millturn_system_b_mcodes : list string := [
  "0"; "1"; "2"; "3"; "4"; "5"; "6"; "8"; "9"; "10"; "11"; "13"; "14"; "17"; "18"; "19"; "20"; "23"; "24";
  "25"; "26"; "27"; "28"; "29"; "30"; "31"; "32"; "33"; "34"; "35"; "36"; "37"; "38"; "40"; "41"; "42"; "43";
  "44"; "45"; "46"; "47"; "48"; "49"; "50"; "51"; "52"; "53"; "55"; "57"; "58"; "59"; "60"; "61"; "62"; "63";
  "64"; "65"; "66"; "67"; "68"; "69"; "70"; "71"; "72"; "73"; "74"; "75"; "76"; "78"; "79"; "80"; "81"; "82";
  "83"; "84"; "85"; "86"; "87"; "88"; "89"; "90"; "91"; "92"; "93"; "98"; "99"; "100"; "101"; "102"; "103";
  "104"; "105"; "106"; "107"; "108"; "109"; "110"; "111"; "112"; "113"; "114"; "115"; "116"; "117"; "118";
  "119"; "120"; "121"; "122"; "123"; "124"; "125"; "126"; "127"; "128"; "129"; "130"; "131"; "132"; "133";
  "134"; "135"; "136"; "137"; "138"; "139"; "140"; "141"; "142"; "143"; "144"; "145"; "146"; "147"; "148";
  "149"; "150"; "151"; "152"; "153"; "154"; "155"; "156"; "157"; "158"; "159"; "160"; "161"; "162"; "163";
  "164"; "165"; "166"; "167"; "168"; "169"; "170"; "171"; "172"; "173"; "174"; "175"; "176"; "177"; "178";
  "179"; "180"; "181"; "182"; "183"; "184"; "185"; "186"; "187"; "188"; "189"; "190"; "191"; "192"; "193";
  "194"; "195"; "196"; "197"; "198"; "200"; "201"; "203"; "204"; "206"; "207"; "210"; "211"; "219"; "220";
  "221"; "222"; "223"; "224"; "225"; "234"; "235"; "242"; "243"; "245"; "246"; "250"; "251"; "252"; "253";
  "255"; "257"; "258"; "259"; "265"; "266"; "268"; "269"; "271"; "272"; "273"; "274"; "278"; "279"; "283";
  "284"; "285"; "286"; "290"; "291"; "300"; "301"; "302"; "303"; "304"; "305"; "314"; "315"; "317"; "318";
  "319"; "329"; "337"; "340"; "341"; "342"; "343"; "344"; "345"; "346"; "347"; "348"; "349"; "350"; "351";
  "360"; "361"; "364"; "365"; "367"; "368"; "369"; "380"; "381"; "382"; "383"; "384"; "387"; "395"; "396";
  "397"; "398"; "399"; "400"; "401"; "402"; "403"; "404"; "405"; "406"; "407"; "408"; "409"; "410"; "411";
  "412"; "413"; "414"; "415"; "416"; "417"; "418"; "419"; "420"; "421"; "422"; "423"; "424"; "425"; "426";
  "427"; "428"; "429"; "430"; "431"; "434"; "435"; "436"; "437"; "440"; "441"; "442"; "443"; "444"; "445";
  "446"; "447"; "448"; "449"; "456"; "457"; "458"; "459"; "460"; "461"; "462"; "463"; "464"; "465"; "466";
  "468"; "469"; "471"; "472"; "473"; "474"; "475"; "476"; "477"; "478"; "479"; "480"; "481"; "482"; "483";
  "484"; "485"; "486"; "487"; "488"; "489"; "490"; "491"; "492"; "493"; "494"; "495"; "496"; "497"; "498";
  "499"; "556"; "557"; "558"; "559"; "560"; "561"; "562"; "563"; "564"; "570"; "571"; "578"; "579"; "580";
  "581"; "582"; "583"; "584"; "585"; "588"; "589"; "590"; "591"; "592"; "593"; "594"; "595"; "608"; "609";
  "610"; "611"; "612"; "613"; "617"; "618"; "619"; "620"; "625"; "626"; "641"; "642"; "643"; "649"; "650";
  "651"; "652"; "653"; "654"; "655"; "656"; "657"; "658"; "659"; "660"; "667"; "668"; "675"; "676"; "677";
  "678"; "684"; "685"; "690"; "712"; "713"; "752"; "754"; "755"; "756"; "757"; "845"; "846"; "2000"; "2001";
  "2002"; "2003"; "2004"; "2005"; "2006"; "2007"; "2008"; "2009"; "2010"; "2011"; "2012"; "2013"; "2014";
  "2015"; "2016"; "2017"; "2018"; "2019"; "2020"; "2030"; "2031"; "2032"; "2035"; "2036"; "2040"; "2041";
  "2042"; "2043"; "2044"; "2045"; "2046"; "2047"; "2066"; "2067"; "2073"; "2076"; "2077"; "2086"; "2087";
  "2088"; "2117"; "2118"; "2200"].

(** conf/generic_lathe/desc/mcode_desc_en.json. *)
Definition generic_lathe_mcodes : list string := [
  "00"; "01"; "02"; "03"; "04"; "05"; "06"; "07"; "08"; "09"; "13"; "14"; "30"; "97"; "98"; "99"].

(** conf/generic_mill/desc/mcode_desc_en.json. *)
Definition generic_mill_mcodes : list string := [
  "00"; "01"; "02"; "03"; "04"; "05"; "06"; "07"; "08"; "09"; "17"; "29"; "30"; "97"; "98"; "99"].

(** conf/haas_lathe/desc/mcode_desc_en.json. *)
Definition haas_lathe_mcodes : list string := [
  "2"; "30"].

(** conf/haas_mill/desc/mcode_desc_en.json. *)
Definition haas_mill_mcodes : list string := [
  "0"; "1"; "2"; "3"; "4"; "5"; "6"; "7"; "8"; "9"; "10"; "11"; "12"; "13"; "16"; "19"; "21"; "22"; "23";
  "24"; "25"; "29"; "30"; "31"; "33"; "34"; "35"; "36"; "39"; "41"; "42"; "46"; "48"; "50"; "51"; "52"; "53";
  "54"; "55"; "59"; "61"; "62"; "63"; "64"; "65"; "69"; "73"; "74"; "75"; "78"; "79"; "80"; "81"; "82"; "83";
  "84"; "86"; "88"; "89"; "90"; "91"; "95"; "96"; "97"; "98"; "99"; "104"; "105"; "109"; "130"; "131"; "138";
  "139"; "158"; "159"; "160"; "161"; "162"; "163"; "199"].

(** conf/makino_mill/desc/mcode_desc_en.json. *)
Definition makino_mill_mcodes : list string := [
  "0"; "1"; "2"; "3"; "4"; "5"; "6"; "7"; "8"; "9"; "10"; "11"; "12"; "13"; "14"; "15"; "16"; "18"; "19";
  "21"; "22"; "23"; "26"; "30"; "56"; "98"; "99"; "198"].

Definition shipped_gcodes : list (string * list string) := [
  ("fanuc_lathe_system_a", fanuc_lathe_system_a_gcodes);
  ("fanuc_lathe_system_b", fanuc_lathe_system_b_gcodes);
  ("fanuc_lathe_system_c", fanuc_lathe_system_c_gcodes);
  ("fanuc_mill", fanuc_mill_gcodes);
  ("fanuc_millturn_system_a", fanuc_millturn_system_a_gcodes);
  ("fanuc_millturn_system_b", fanuc_millturn_system_b_gcodes);
  ("generic_lathe", generic_lathe_gcodes);
  ("generic_mill", generic_mill_gcodes);
  ("haas_lathe", haas_lathe_gcodes);
  ("haas_mill", haas_mill_gcodes);
  ("makino_mill", makino_mill_gcodes)].

Definition shipped_mcodes : list (string * list string) := [
  ("fanuc_lathe_system_a", fanuc_lathe_system_a_mcodes);
  ("fanuc_lathe_system_b", fanuc_lathe_system_b_mcodes);
  ("fanuc_lathe_system_c", fanuc_lathe_system_c_mcodes);
  ("fanuc_mill", fanuc_mill_mcodes);
  ("fanuc_millturn_system_a", fanuc_millturn_system_a_mcodes);
  ("fanuc_millturn_system_b", fanuc_millturn_system_b_mcodes);
  ("generic_lathe", generic_lathe_mcodes);
  ("generic_mill", generic_mill_mcodes);
  ("haas_lathe", haas_lathe_mcodes);
  ("haas_mill", haas_mill_mcodes);
  ("makino_mill", makino_mill_mcodes)].

(** conf/generic_mill/desc/mcode_desc_en.json, with its texts. *)
Definition generic_mill_mcode_file : desc_file := [
  ("00", [("Program Stop (non-optional)", "")]);
  ("01", [("Optional Stop: Operator Selected to Enable", "")]);
  ("02", [("End of Program", "")]);
  ("03", [("Spindle ON (CW Rotation)", "")]);
  ("04", [("Spindle ON (CCW Rotation)", "")]);
  ("05", [("Spindle Stop", "")]);
  ("06", [("Tool Change", "")]);
  ("07", [("Mist Coolant ON", "")]);
  ("08", [("Flood Coolant ON", "")]);
  ("09", [("Coolant OFF", "")]);
  ("17", [("FADAL subroutine return", "")]);
  ("29", [("Rigid Tapping Mode on Fanuc Controls", "")]);
  ("30", [("End of Program, Rewind and Reset Modes", "")]);
  ("97", [("Haas-Style Subprogram Call", "")]);
  ("98", [("Subprogram Call", "")]);
  ("99", [("Return from Subprogram", "")])].
