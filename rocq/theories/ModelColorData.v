(** The colour sets of Patro/GraphicStyle/Color/color_data.py, as written there (a later entry with
    the same key in one set replaces the earlier one in the dict; there is none). *)
From Coq Require Import String Ascii List.
From Verif Require Import ModelFormula.
Import ListNotations.
Definition entry (name value : string) : text * text := (lit name, lit value).
(** 100-109 *)
Definition base_colors : list (text * text) := [
  entry "black" "#000000";
  entry "blue" "#0000ff";
  entry "green" "#00ff00";
  entry "cyan" "#00ffff";
  entry "red" "#ff0000";
  entry "magenta" "#ff00ff";
  entry "yellow" "#ffff00";
  entry "white" "#ffffff"].
(** 114-125 *)
Definition tableau_colors : list (text * text) := [
  entry "blue" "#1f77b4";
  entry "brown" "#8c564b";
  entry "cyan" "#17becf";
  entry "gray" "#7f7f7f";
  entry "green" "#2ca02c";
  entry "olive" "#bcbd22";
  entry "orange" "#ff7f0e";
  entry "pink" "#e377c2";
  entry "purple" "#9467bd";
  entry "red" "#d62728"].
(** 136-1086 *)
Definition xkcd_colors : list (text * text) := [
  entry "robin's egg blue" "#98eff9";
  entry "robin's egg" "#6dedfd";
  entry "acid green" "#8ffe09";
  entry "adobe" "#bd6c48";
  entry "algae green" "#21c36f";
  entry "algae" "#54ac68";
  entry "almost black" "#070d0d";
  entry "amber" "#feb308";
  entry "amethyst" "#9b5fc0";
  entry "apple green" "#76cd26";
  entry "apple" "#6ecb3c";
  entry "apricot" "#ffb16d";
  entry "aqua blue" "#02d8e9";
  entry "aqua green" "#12e193";
  entry "aqua marine" "#2ee8bb";
  entry "aqua" "#13eac9";
  entry "aquamarine" "#04d8b2";
  entry "army green" "#4b5d16";
  entry "asparagus" "#77ab56";
  entry "aubergine" "#3d0734";
  entry "auburn" "#9a3001";
  entry "avocado green" "#87a922";
  entry "avocado" "#90b134";
  entry "azul" "#1d5dec";
  entry "azure" "#069af3";
  entry "baby blue" "#a2cffe";
  entry "baby green" "#8cff9e";
  entry "baby pink" "#ffb7ce";
  entry "baby poo" "#ab9004";
  entry "baby poop green" "#8f9805";
  entry "baby poop" "#937c00";
  entry "baby puke green" "#b6c406";
  entry "baby purple" "#ca9bf7";
  entry "baby shit brown" "#ad900d";
  entry "baby shit green" "#889717";
  entry "banana yellow" "#fafe4b";
  entry "banana" "#ffff7e";
  entry "barbie pink" "#fe46a5";
  entry "barf green" "#94ac02";
  entry "barney purple" "#a00498";
  entry "barney" "#ac1db8";
  entry "battleship grey" "#6b7c85";
  entry "beige" "#e6daa6";
  entry "berry" "#990f4b";
  entry "bile" "#b5c306";
  entry "black" "#000000";
  entry "bland" "#afa88b";
  entry "blood orange" "#fe4b03";
  entry "blood red" "#980002";
  entry "blood" "#770001";
  entry "blue blue" "#2242c7";
  entry "blue green" "#137e6d";
  entry "blue grey" "#607c8e";
  entry "blue purple" "#5729ce";
  entry "blue violet" "#5d06e9";
  entry "blue with a hint of purple" "#533cc6";
  entry "blue" "#0343df";
  entry "blue/green" "#0f9b8e";
  entry "blue/grey" "#758da3";
  entry "blue/purple" "#5a06ef";
  entry "blueberry" "#464196";
  entry "bluegreen" "#017a79";
  entry "bluegrey" "#85a3b2";
  entry "bluey green" "#2bb179";
  entry "bluey grey" "#89a0b0";
  entry "bluey purple" "#6241c7";
  entry "bluish green" "#10a674";
  entry "bluish grey" "#748b97";
  entry "bluish purple" "#703be7";
  entry "bluish" "#2976bb";
  entry "blurple" "#5539cc";
  entry "blush pink" "#fe828c";
  entry "blush" "#f29e8e";
  entry "booger green" "#96b403";
  entry "booger" "#9bb53c";
  entry "bordeaux" "#7b002c";
  entry "boring green" "#63b365";
  entry "bottle green" "#044a05";
  entry "brick orange" "#c14a09";
  entry "brick red" "#8f1402";
  entry "brick" "#a03623";
  entry "bright aqua" "#0bf9ea";
  entry "bright blue" "#0165fc";
  entry "bright cyan" "#41fdfe";
  entry "bright green" "#01ff07";
  entry "bright lavender" "#c760ff";
  entry "bright light blue" "#26f7fd";
  entry "bright light green" "#2dfe54";
  entry "bright lilac" "#c95efb";
  entry "bright lime green" "#65fe08";
  entry "bright lime" "#87fd05";
  entry "bright magenta" "#ff08e8";
  entry "bright olive" "#9cbb04";
  entry "bright orange" "#ff5b00";
  entry "bright pink" "#fe01b1";
  entry "bright purple" "#be03fd";
  entry "bright red" "#ff000d";
  entry "bright sea green" "#05ffa6";
  entry "bright sky blue" "#02ccfe";
  entry "bright teal" "#01f9c6";
  entry "bright turquoise" "#0ffef9";
  entry "bright violet" "#ad0afd";
  entry "bright yellow green" "#9dff00";
  entry "bright yellow" "#fffd01";
  entry "british racing green" "#05480d";
  entry "bronze" "#a87900";
  entry "brown green" "#706c11";
  entry "brown grey" "#8d8468";
  entry "brown orange" "#b96902";
  entry "brown red" "#922b05";
  entry "brown yellow" "#b29705";
  entry "brown" "#653700";
  entry "brownish green" "#6a6e09";
  entry "brownish grey" "#86775f";
  entry "brownish orange" "#cb7723";
  entry "brownish pink" "#c27e79";
  entry "brownish purple" "#76424e";
  entry "brownish red" "#9e3623";
  entry "brownish yellow" "#c9b003";
  entry "brownish" "#9c6d57";
  entry "browny green" "#6f6c0a";
  entry "browny orange" "#ca6b02";
  entry "bruise" "#7e4071";
  entry "bubble gum pink" "#ff69af";
  entry "bubblegum pink" "#fe83cc";
  entry "bubblegum" "#ff6cb5";
  entry "buff" "#fef69e";
  entry "burgundy" "#610023";
  entry "burnt orange" "#c04e01";
  entry "burnt red" "#9f2305";
  entry "burnt siena" "#b75203";
  entry "burnt sienna" "#b04e0f";
  entry "burnt umber" "#a0450e";
  entry "burnt yellow" "#d5ab09";
  entry "burple" "#6832e3";
  entry "butter yellow" "#fffd74";
  entry "butter" "#ffff81";
  entry "butterscotch" "#fdb147";
  entry "cadet blue" "#4e7496";
  entry "camel" "#c69f59";
  entry "camo green" "#526525";
  entry "camo" "#7f8f4e";
  entry "camouflage green" "#4b6113";
  entry "canary yellow" "#fffe40";
  entry "canary" "#fdff63";
  entry "candy pink" "#ff63e9";
  entry "caramel" "#af6f09";
  entry "carmine" "#9d0216";
  entry "carnation pink" "#ff7fa7";
  entry "carnation" "#fd798f";
  entry "carolina blue" "#8ab8fe";
  entry "celadon" "#befdb7";
  entry "celery" "#c1fd95";
  entry "cement" "#a5a391";
  entry "cerise" "#de0c62";
  entry "cerulean blue" "#056eee";
  entry "cerulean" "#0485d1";
  entry "charcoal grey" "#3c4142";
  entry "charcoal" "#343837";
  entry "chartreuse" "#c1f80a";
  entry "cherry red" "#f7022a";
  entry "cherry" "#cf0234";
  entry "chestnut" "#742802";
  entry "chocolate brown" "#411900";
  entry "chocolate" "#3d1c02";
  entry "cinnamon" "#ac4f06";
  entry "claret" "#680018";
  entry "clay brown" "#b2713d";
  entry "clay" "#b66a50";
  entry "clear blue" "#247afd";
  entry "cloudy blue" "#acc2d9";
  entry "cobalt blue" "#030aa7";
  entry "cobalt" "#1e488f";
  entry "cocoa" "#875f42";
  entry "coffee" "#a6814c";
  entry "cool blue" "#4984b8";
  entry "cool green" "#33b864";
  entry "cool grey" "#95a3a6";
  entry "copper" "#b66325";
  entry "coral pink" "#ff6163";
  entry "coral" "#fc5a50";
  entry "cornflower blue" "#5170d7";
  entry "cornflower" "#6a79f7";
  entry "cranberry" "#9e003a";
  entry "cream" "#ffffc2";
  entry "creme" "#ffffb6";
  entry "crimson" "#8c000f";
  entry "custard" "#fffd78";
  entry "cyan" "#00ffff";
  entry "dandelion" "#fedf08";
  entry "dark aqua" "#05696b";
  entry "dark aquamarine" "#017371";
  entry "dark beige" "#ac9362";
  entry "dark blue green" "#005249";
  entry "dark blue grey" "#1f3b4d";
  entry "dark blue" "#00035b";
  entry "dark brown" "#341c02";
  entry "dark coral" "#cf524e";
  entry "dark cream" "#fff39a";
  entry "dark cyan" "#0a888a";
  entry "dark forest green" "#002d04";
  entry "dark fuchsia" "#9d0759";
  entry "dark gold" "#b59410";
  entry "dark grass green" "#388004";
  entry "dark green blue" "#1f6357";
  entry "dark green" "#033500";
  entry "dark grey blue" "#29465b";
  entry "dark grey" "#363737";
  entry "dark hot pink" "#d90166";
  entry "dark indigo" "#1f0954";
  entry "dark khaki" "#9b8f55";
  entry "dark lavender" "#856798";
  entry "dark lilac" "#9c6da5";
  entry "dark lime green" "#7ebd01";
  entry "dark lime" "#84b701";
  entry "dark magenta" "#960056";
  entry "dark maroon" "#3c0008";
  entry "dark mauve" "#874c62";
  entry "dark mint green" "#20c073";
  entry "dark mint" "#48c072";
  entry "dark mustard" "#a88905";
  entry "dark navy blue" "#00022e";
  entry "dark navy" "#000435";
  entry "dark olive green" "#3c4d03";
  entry "dark olive" "#373e02";
  entry "dark orange" "#c65102";
  entry "dark pastel green" "#56ae57";
  entry "dark peach" "#de7e5d";
  entry "dark periwinkle" "#665fd1";
  entry "dark pink" "#cb416b";
  entry "dark plum" "#3f012c";
  entry "dark purple" "#35063e";
  entry "dark red" "#840000";
  entry "dark rose" "#b5485d";
  entry "dark royal blue" "#02066f";
  entry "dark sage" "#598556";
  entry "dark salmon" "#c85a53";
  entry "dark sand" "#a88f59";
  entry "dark sea green" "#11875d";
  entry "dark seafoam green" "#3eaf76";
  entry "dark seafoam" "#1fb57a";
  entry "dark sky blue" "#448ee4";
  entry "dark slate blue" "#214761";
  entry "dark tan" "#af884a";
  entry "dark taupe" "#7f684e";
  entry "dark teal" "#014d4e";
  entry "dark turquoise" "#045c5a";
  entry "dark violet" "#34013f";
  entry "dark yellow green" "#728f02";
  entry "dark yellow" "#d5b60a";
  entry "dark" "#1b2431";
  entry "darkblue" "#030764";
  entry "darkgreen" "#054907";
  entry "darkish blue" "#014182";
  entry "darkish green" "#287c37";
  entry "darkish pink" "#da467d";
  entry "darkish purple" "#751973";
  entry "darkish red" "#a90308";
  entry "deep aqua" "#08787f";
  entry "deep blue" "#040273";
  entry "deep brown" "#410200";
  entry "deep green" "#02590f";
  entry "deep lavender" "#8d5eb7";
  entry "deep lilac" "#966ebd";
  entry "deep magenta" "#a0025c";
  entry "deep orange" "#dc4d01";
  entry "deep pink" "#cb0162";
  entry "deep purple" "#36013f";
  entry "deep red" "#9a0200";
  entry "deep rose" "#c74767";
  entry "deep sea blue" "#015482";
  entry "deep sky blue" "#0d75f8";
  entry "deep teal" "#00555a";
  entry "deep turquoise" "#017374";
  entry "deep violet" "#490648";
  entry "denim blue" "#3b5b92";
  entry "denim" "#3b638c";
  entry "desert" "#ccad60";
  entry "diarrhea" "#9f8303";
  entry "dirt brown" "#836539";
  entry "dirt" "#8a6e45";
  entry "dirty blue" "#3f829d";
  entry "dirty green" "#667e2c";
  entry "dirty orange" "#c87606";
  entry "dirty pink" "#ca7b80";
  entry "dirty purple" "#734a65";
  entry "dirty yellow" "#cdc50a";
  entry "dodger blue" "#3e82fc";
  entry "drab green" "#749551";
  entry "drab" "#828344";
  entry "dried blood" "#4b0101";
  entry "duck egg blue" "#c3fbf4";
  entry "dull blue" "#49759c";
  entry "dull brown" "#876e4b";
  entry "dull green" "#74a662";
  entry "dull orange" "#d8863b";
  entry "dull pink" "#d5869d";
  entry "dull purple" "#84597e";
  entry "dull red" "#bb3f3f";
  entry "dull teal" "#5f9e8f";
  entry "dull yellow" "#eedc5b";
  entry "dusk blue" "#26538d";
  entry "dusk" "#4e5481";
  entry "dusky blue" "#475f94";
  entry "dusky pink" "#cc7a8b";
  entry "dusky purple" "#895b7b";
  entry "dusky rose" "#ba6873";
  entry "dust" "#b2996e";
  entry "dusty blue" "#5a86ad";
  entry "dusty green" "#76a973";
  entry "dusty lavender" "#ac86a8";
  entry "dusty orange" "#f0833a";
  entry "dusty pink" "#d58a94";
  entry "dusty purple" "#825f87";
  entry "dusty red" "#b9484e";
  entry "dusty rose" "#c0737a";
  entry "dusty teal" "#4c9085";
  entry "earth" "#a2653e";
  entry "easter green" "#8cfd7e";
  entry "easter purple" "#c071fe";
  entry "ecru" "#feffca";
  entry "egg shell" "#fffcc4";
  entry "eggplant purple" "#430541";
  entry "eggplant" "#380835";
  entry "eggshell blue" "#c4fff7";
  entry "eggshell" "#ffffd4";
  entry "electric blue" "#0652ff";
  entry "electric green" "#21fc0d";
  entry "electric lime" "#a8ff04";
  entry "electric pink" "#ff0490";
  entry "electric purple" "#aa23ff";
  entry "emerald green" "#028f1e";
  entry "emerald" "#01a049";
  entry "evergreen" "#05472a";
  entry "faded blue" "#658cbb";
  entry "faded green" "#7bb274";
  entry "faded orange" "#f0944d";
  entry "faded pink" "#de9dac";
  entry "faded purple" "#916e99";
  entry "faded red" "#d3494e";
  entry "faded yellow" "#feff7f";
  entry "fawn" "#cfaf7b";
  entry "fern green" "#548d44";
  entry "fern" "#63a950";
  entry "fire engine red" "#fe0002";
  entry "flat blue" "#3c73a8";
  entry "flat green" "#699d4c";
  entry "fluorescent green" "#08ff08";
  entry "fluro green" "#0aff02";
  entry "foam green" "#90fda9";
  entry "forest green" "#06470c";
  entry "forest" "#0b5509";
  entry "forrest green" "#154406";
  entry "french blue" "#436bad";
  entry "fresh green" "#69d84f";
  entry "frog green" "#58bc08";
  entry "fuchsia" "#ed0dd9";
  entry "gold" "#dbb40c";
  entry "golden brown" "#b27a01";
  entry "golden rod" "#f9bc08";
  entry "golden yellow" "#fec615";
  entry "golden" "#f5bf03";
  entry "goldenrod" "#fac205";
  entry "grape purple" "#5d1451";
  entry "grape" "#6c3461";
  entry "grapefruit" "#fd5956";
  entry "grass green" "#3f9b0b";
  entry "grass" "#5cac2d";
  entry "grassy green" "#419c03";
  entry "green apple" "#5edc1f";
  entry "green blue" "#06b48b";
  entry "green brown" "#544e03";
  entry "green grey" "#77926f";
  entry "green teal" "#0cb577";
  entry "green yellow" "#c9ff27";
  entry "green" "#15b01a";
  entry "green/blue" "#01c08d";
  entry "green/yellow" "#b5ce08";
  entry "greenblue" "#23c48b";
  entry "greenish beige" "#c9d179";
  entry "greenish blue" "#0b8b87";
  entry "greenish brown" "#696112";
  entry "greenish cyan" "#2afeb7";
  entry "greenish grey" "#96ae8d";
  entry "greenish tan" "#bccb7a";
  entry "greenish teal" "#32bf84";
  entry "greenish turquoise" "#00fbb0";
  entry "greenish yellow" "#cdfd02";
  entry "greenish" "#40a368";
  entry "greeny blue" "#42b395";
  entry "greeny brown" "#696006";
  entry "greeny grey" "#7ea07a";
  entry "greeny yellow" "#c6f808";
  entry "grey blue" "#6b8ba4";
  entry "grey brown" "#7f7053";
  entry "grey green" "#789b73";
  entry "grey pink" "#c3909b";
  entry "grey purple" "#826d8c";
  entry "grey teal" "#5e9b8a";
  entry "grey" "#929591";
  entry "grey/blue" "#647d8e";
  entry "grey/green" "#86a17d";
  entry "greyblue" "#77a1b5";
  entry "greyish blue" "#5e819d";
  entry "greyish brown" "#7a6a4f";
  entry "greyish green" "#82a67d";
  entry "greyish pink" "#c88d94";
  entry "greyish purple" "#887191";
  entry "greyish teal" "#719f91";
  entry "greyish" "#a8a495";
  entry "gross green" "#a0bf16";
  entry "gunmetal" "#536267";
  entry "hazel" "#8e7618";
  entry "heather" "#a484ac";
  entry "heliotrope" "#d94ff5";
  entry "highlighter green" "#1bfc06";
  entry "hospital green" "#9be5aa";
  entry "hot green" "#25ff29";
  entry "hot magenta" "#f504c9";
  entry "hot pink" "#ff028d";
  entry "hot purple" "#cb00f5";
  entry "hunter green" "#0b4008";
  entry "ice blue" "#d7fffe";
  entry "ice" "#d6fffa";
  entry "icky green" "#8fae22";
  entry "indian red" "#850e04";
  entry "indigo blue" "#3a18b1";
  entry "indigo" "#380282";
  entry "iris" "#6258c4";
  entry "irish green" "#019529";
  entry "ivory" "#ffffcb";
  entry "jade green" "#2baf6a";
  entry "jade" "#1fa774";
  entry "jungle green" "#048243";
  entry "kelley green" "#009337";
  entry "kelly green" "#02ab2e";
  entry "kermit green" "#5cb200";
  entry "key lime" "#aeff6e";
  entry "khaki green" "#728639";
  entry "khaki" "#aaa662";
  entry "kiwi green" "#8ee53f";
  entry "kiwi" "#9cef43";
  entry "lavender blue" "#8b88f8";
  entry "lavender pink" "#dd85d7";
  entry "lavender" "#c79fef";
  entry "lawn green" "#4da409";
  entry "leaf green" "#5ca904";
  entry "leaf" "#71aa34";
  entry "leafy green" "#51b73b";
  entry "leather" "#ac7434";
  entry "lemon green" "#adf802";
  entry "lemon lime" "#bffe28";
  entry "lemon yellow" "#fdff38";
  entry "lemon" "#fdff52";
  entry "lichen" "#8fb67b";
  entry "light aqua" "#8cffdb";
  entry "light aquamarine" "#7bfdc7";
  entry "light beige" "#fffeb6";
  entry "light blue green" "#7efbb3";
  entry "light blue grey" "#b7c9e2";
  entry "light blue" "#95d0fc";
  entry "light bluish green" "#76fda8";
  entry "light bright green" "#53fe5c";
  entry "light brown" "#ad8150";
  entry "light burgundy" "#a8415b";
  entry "light cyan" "#acfffc";
  entry "light eggplant" "#894585";
  entry "light forest green" "#4f9153";
  entry "light gold" "#fddc5c";
  entry "light grass green" "#9af764";
  entry "light green blue" "#56fca2";
  entry "light green" "#96f97b";
  entry "light greenish blue" "#63f7b4";
  entry "light grey blue" "#9dbcd4";
  entry "light grey green" "#b7e1a1";
  entry "light grey" "#d8dcd6";
  entry "light indigo" "#6d5acf";
  entry "light khaki" "#e6f2a2";
  entry "light lavendar" "#efc0fe";
  entry "light lavender" "#dfc5fe";
  entry "light light blue" "#cafffb";
  entry "light light green" "#c8ffb0";
  entry "light lilac" "#edc8ff";
  entry "light lime green" "#b9ff66";
  entry "light lime" "#aefd6c";
  entry "light magenta" "#fa5ff7";
  entry "light maroon" "#a24857";
  entry "light mauve" "#c292a1";
  entry "light mint green" "#a6fbb2";
  entry "light mint" "#b6ffbb";
  entry "light moss green" "#a6c875";
  entry "light mustard" "#f7d560";
  entry "light navy blue" "#2e5a88";
  entry "light navy" "#155084";
  entry "light neon green" "#4efd54";
  entry "light olive green" "#a4be5c";
  entry "light olive" "#acbf69";
  entry "light orange" "#fdaa48";
  entry "light pastel green" "#b2fba5";
  entry "light pea green" "#c4fe82";
  entry "light peach" "#ffd8b1";
  entry "light periwinkle" "#c1c6fc";
  entry "light pink" "#ffd1df";
  entry "light plum" "#9d5783";
  entry "light purple" "#bf77f6";
  entry "light red" "#ff474c";
  entry "light rose" "#ffc5cb";
  entry "light royal blue" "#3a2efe";
  entry "light sage" "#bcecac";
  entry "light salmon" "#fea993";
  entry "light sea green" "#98f6b0";
  entry "light seafoam green" "#a7ffb5";
  entry "light seafoam" "#a0febf";
  entry "light sky blue" "#c6fcff";
  entry "light tan" "#fbeeac";
  entry "light teal" "#90e4c1";
  entry "light turquoise" "#7ef4cc";
  entry "light urple" "#b36ff6";
  entry "light violet" "#d6b4fc";
  entry "light yellow green" "#ccfd7f";
  entry "light yellow" "#fffe7a";
  entry "light yellowish green" "#c2ff89";
  entry "lightblue" "#7bc8f6";
  entry "lighter green" "#75fd63";
  entry "lighter purple" "#a55af4";
  entry "lightgreen" "#76ff7b";
  entry "lightish blue" "#3d7afd";
  entry "lightish green" "#61e160";
  entry "lightish purple" "#a552e6";
  entry "lightish red" "#fe2f4a";
  entry "lilac" "#cea2fd";
  entry "liliac" "#c48efd";
  entry "lime green" "#89fe05";
  entry "lime yellow" "#d0fe1d";
  entry "lime" "#aaff32";
  entry "lipstick red" "#c0022f";
  entry "lipstick" "#d5174e";
  entry "macaroni and cheese" "#efb435";
  entry "magenta" "#c20078";
  entry "mahogany" "#4a0100";
  entry "maize" "#f4d054";
  entry "mango" "#ffa62b";
  entry "manilla" "#fffa86";
  entry "marigold" "#fcc006";
  entry "marine blue" "#01386a";
  entry "marine" "#042e60";
  entry "maroon" "#650021";
  entry "mauve" "#ae7181";
  entry "medium blue" "#2c6fbb";
  entry "medium brown" "#7f5112";
  entry "medium green" "#39ad48";
  entry "medium grey" "#7d7f7c";
  entry "medium pink" "#f36196";
  entry "medium purple" "#9e43a2";
  entry "melon" "#ff7855";
  entry "merlot" "#730039";
  entry "metallic blue" "#4f738e";
  entry "mid blue" "#276ab3";
  entry "mid green" "#50a747";
  entry "midnight blue" "#020035";
  entry "midnight purple" "#280137";
  entry "midnight" "#03012d";
  entry "military green" "#667c3e";
  entry "milk chocolate" "#7f4e1e";
  entry "mint green" "#8fff9f";
  entry "mint" "#9ffeb0";
  entry "minty green" "#0bf77d";
  entry "mocha" "#9d7651";
  entry "moss green" "#658b38";
  entry "moss" "#769958";
  entry "mossy green" "#638b27";
  entry "mud brown" "#60460f";
  entry "mud green" "#606602";
  entry "mud" "#735c12";
  entry "muddy brown" "#886806";
  entry "muddy green" "#657432";
  entry "muddy yellow" "#bfac05";
  entry "mulberry" "#920a4e";
  entry "murky green" "#6c7a0e";
  entry "mushroom" "#ba9e88";
  entry "mustard brown" "#ac7e04";
  entry "mustard green" "#a8b504";
  entry "mustard yellow" "#d2bd0a";
  entry "mustard" "#ceb301";
  entry "muted blue" "#3b719f";
  entry "muted green" "#5fa052";
  entry "muted pink" "#d1768f";
  entry "muted purple" "#805b87";
  entry "nasty green" "#70b23f";
  entry "navy blue" "#001146";
  entry "navy green" "#35530a";
  entry "navy" "#01153e";
  entry "neon blue" "#04d9ff";
  entry "neon green" "#0cff0c";
  entry "neon pink" "#fe019a";
  entry "neon purple" "#bc13fe";
  entry "neon red" "#ff073a";
  entry "neon yellow" "#cfff04";
  entry "nice blue" "#107ab0";
  entry "night blue" "#040348";
  entry "ocean blue" "#03719c";
  entry "ocean green" "#3d9973";
  entry "ocean" "#017b92";
  entry "ocher" "#bf9b0c";
  entry "ochre" "#bf9005";
  entry "ocre" "#c69c04";
  entry "off blue" "#5684ae";
  entry "off green" "#6ba353";
  entry "off white" "#ffffe4";
  entry "off yellow" "#f1f33f";
  entry "old pink" "#c77986";
  entry "old rose" "#c87f89";
  entry "olive brown" "#645403";
  entry "olive drab" "#6f7632";
  entry "olive green" "#677a04";
  entry "olive yellow" "#c2b709";
  entry "olive" "#6e750e";
  entry "orange brown" "#be6400";
  entry "orange pink" "#ff6f52";
  entry "orange red" "#fd411e";
  entry "orange yellow" "#ffad01";
  entry "orange" "#f97306";
  entry "orangeish" "#fd8d49";
  entry "orangered" "#fe420f";
  entry "orangey brown" "#b16002";
  entry "orangey red" "#fa4224";
  entry "orangey yellow" "#fdb915";
  entry "orangish brown" "#b25f03";
  entry "orangish red" "#f43605";
  entry "orangish" "#fc824a";
  entry "orchid" "#c875c4";
  entry "pale aqua" "#b8ffeb";
  entry "pale blue" "#d0fefe";
  entry "pale brown" "#b1916e";
  entry "pale cyan" "#b7fffa";
  entry "pale gold" "#fdde6c";
  entry "pale green" "#c7fdb5";
  entry "pale grey" "#fdfdfe";
  entry "pale lavender" "#eecffe";
  entry "pale light green" "#b1fc99";
  entry "pale lilac" "#e4cbff";
  entry "pale lime green" "#b1ff65";
  entry "pale lime" "#befd73";
  entry "pale magenta" "#d767ad";
  entry "pale mauve" "#fed0fc";
  entry "pale olive green" "#b1d27b";
  entry "pale olive" "#b9cc81";
  entry "pale orange" "#ffa756";
  entry "pale peach" "#ffe5ad";
  entry "pale pink" "#ffcfdc";
  entry "pale purple" "#b790d4";
  entry "pale red" "#d9544d";
  entry "pale rose" "#fdc1c5";
  entry "pale salmon" "#ffb19a";
  entry "pale sky blue" "#bdf6fe";
  entry "pale teal" "#82cbb2";
  entry "pale turquoise" "#a5fbd5";
  entry "pale violet" "#ceaefa";
  entry "pale yellow" "#ffff84";
  entry "pale" "#fff9d0";
  entry "parchment" "#fefcaf";
  entry "pastel blue" "#a2bffe";
  entry "pastel green" "#b0ff9d";
  entry "pastel orange" "#ff964f";
  entry "pastel pink" "#ffbacd";
  entry "pastel purple" "#caa0ff";
  entry "pastel red" "#db5856";
  entry "pastel yellow" "#fffe71";
  entry "pea green" "#8eab12";
  entry "pea soup green" "#94a617";
  entry "pea soup" "#929901";
  entry "pea" "#a4bf20";
  entry "peach" "#ffb07c";
  entry "peachy pink" "#ff9a8a";
  entry "peacock blue" "#016795";
  entry "pear" "#cbf85f";
  entry "periwinkle blue" "#8f99fb";
  entry "periwinkle" "#8e82fe";
  entry "perrywinkle" "#8f8ce7";
  entry "petrol" "#005f6a";
  entry "pig pink" "#e78ea5";
  entry "pine green" "#0a481e";
  entry "pine" "#2b5d34";
  entry "pink purple" "#db4bda";
  entry "pink red" "#f5054f";
  entry "pink" "#ff81c0";
  entry "pink/purple" "#ef1de7";
  entry "pinkish brown" "#b17261";
  entry "pinkish grey" "#c8aca9";
  entry "pinkish orange" "#ff724c";
  entry "pinkish purple" "#d648d7";
  entry "pinkish red" "#f10c45";
  entry "pinkish tan" "#d99b82";
  entry "pinkish" "#d46a7e";
  entry "pinky purple" "#c94cbe";
  entry "pinky red" "#fc2647";
  entry "pinky" "#fc86aa";
  entry "piss yellow" "#ddd618";
  entry "pistachio" "#c0fa8b";
  entry "plum purple" "#4e0550";
  entry "plum" "#580f41";
  entry "poison green" "#40fd14";
  entry "poo brown" "#885f01";
  entry "poo" "#8f7303";
  entry "poop brown" "#7a5901";
  entry "poop green" "#6f7c00";
  entry "poop" "#7f5e00";
  entry "powder blue" "#b1d1fc";
  entry "powder pink" "#ffb2d0";
  entry "primary blue" "#0804f9";
  entry "prussian blue" "#004577";
  entry "puce" "#a57e52";
  entry "puke brown" "#947706";
  entry "puke green" "#9aae07";
  entry "puke yellow" "#c2be0e";
  entry "puke" "#a5a502";
  entry "pumpkin orange" "#fb7d07";
  entry "pumpkin" "#e17701";
  entry "pure blue" "#0203e2";
  entry "purple blue" "#632de9";
  entry "purple brown" "#673a3f";
  entry "purple grey" "#866f85";
  entry "purple pink" "#e03fd8";
  entry "purple red" "#990147";
  entry "purple" "#7e1e9c";
  entry "purple/blue" "#5d21d0";
  entry "purple/pink" "#d725de";
  entry "purpleish blue" "#6140ef";
  entry "purpleish pink" "#df4ec8";
  entry "purpleish" "#98568d";
  entry "purpley blue" "#5f34e7";
  entry "purpley grey" "#947e94";
  entry "purpley pink" "#c83cb9";
  entry "purpley" "#8756e4";
  entry "purplish blue" "#601ef9";
  entry "purplish brown" "#6b4247";
  entry "purplish grey" "#7a687f";
  entry "purplish pink" "#ce5dae";
  entry "purplish red" "#b0054b";
  entry "purplish" "#94568c";
  entry "purply blue" "#661aee";
  entry "purply pink" "#f075e6";
  entry "purply" "#983fb2";
  entry "putty" "#beae8a";
  entry "racing green" "#014600";
  entry "radioactive green" "#2cfa1f";
  entry "raspberry" "#b00149";
  entry "raw sienna" "#9a6200";
  entry "raw umber" "#a75e09";
  entry "really light blue" "#d4ffff";
  entry "red brown" "#8b2e16";
  entry "red orange" "#fd3c06";
  entry "red pink" "#fa2a55";
  entry "red purple" "#820747";
  entry "red violet" "#9e0168";
  entry "red wine" "#8c0034";
  entry "red" "#e50000";
  entry "reddish brown" "#7f2b0a";
  entry "reddish grey" "#997570";
  entry "reddish orange" "#f8481c";
  entry "reddish pink" "#fe2c54";
  entry "reddish purple" "#910951";
  entry "reddish" "#c44240";
  entry "reddy brown" "#6e1005";
  entry "rich blue" "#021bf9";
  entry "rich purple" "#720058";
  entry "robin egg blue" "#8af1fe";
  entry "rosa" "#fe86a4";
  entry "rose pink" "#f7879a";
  entry "rose red" "#be013c";
  entry "rose" "#cf6275";
  entry "rosy pink" "#f6688e";
  entry "rouge" "#ab1239";
  entry "royal blue" "#0504aa";
  entry "royal purple" "#4b006e";
  entry "royal" "#0c1793";
  entry "ruby" "#ca0147";
  entry "russet" "#a13905";
  entry "rust brown" "#8b3103";
  entry "rust orange" "#c45508";
  entry "rust red" "#aa2704";
  entry "rust" "#a83c09";
  entry "rusty orange" "#cd5909";
  entry "rusty red" "#af2f0d";
  entry "saffron" "#feb209";
  entry "sage green" "#88b378";
  entry "sage" "#87ae73";
  entry "salmon pink" "#fe7b7c";
  entry "salmon" "#ff796c";
  entry "sand brown" "#cba560";
  entry "sand yellow" "#fce166";
  entry "sand" "#e2ca76";
  entry "sandstone" "#c9ae74";
  entry "sandy brown" "#c4a661";
  entry "sandy yellow" "#fdee73";
  entry "sandy" "#f1da7a";
  entry "sap green" "#5c8b15";
  entry "sapphire" "#2138ab";
  entry "scarlet" "#be0119";
  entry "sea blue" "#047495";
  entry "sea green" "#53fca1";
  entry "sea" "#3c9992";
  entry "seafoam blue" "#78d1b6";
  entry "seafoam green" "#7af9ab";
  entry "seafoam" "#80f9ad";
  entry "seaweed green" "#35ad6b";
  entry "seaweed" "#18d17b";
  entry "sepia" "#985e2b";
  entry "shamrock green" "#02c14d";
  entry "shamrock" "#01b44c";
  entry "shit brown" "#7b5804";
  entry "shit green" "#758000";
  entry "shit" "#7f5f00";
  entry "shocking pink" "#fe02a2";
  entry "sick green" "#9db92c";
  entry "sickly green" "#94b21c";
  entry "sickly yellow" "#d0e429";
  entry "sienna" "#a9561e";
  entry "silver" "#c5c9c7";
  entry "sky blue" "#75bbfd";
  entry "sky" "#82cafc";
  entry "slate blue" "#5b7c99";
  entry "slate green" "#658d6d";
  entry "slate grey" "#59656d";
  entry "slate" "#516572";
  entry "slime green" "#99cc04";
  entry "snot green" "#9dc100";
  entry "snot" "#acbb0d";
  entry "soft blue" "#6488ea";
  entry "soft green" "#6fc276";
  entry "soft pink" "#fdb0c0";
  entry "soft purple" "#a66fb5";
  entry "spearmint" "#1ef876";
  entry "spring green" "#a9f971";
  entry "spruce" "#0a5f38";
  entry "squash" "#f2ab15";
  entry "steel blue" "#5a7d9a";
  entry "steel grey" "#6f828a";
  entry "steel" "#738595";
  entry "stone" "#ada587";
  entry "stormy blue" "#507b9c";
  entry "straw" "#fcf679";
  entry "strawberry" "#fb2943";
  entry "strong blue" "#0c06f7";
  entry "strong pink" "#ff0789";
  entry "sun yellow" "#ffdf22";
  entry "sunflower yellow" "#ffda03";
  entry "sunflower" "#ffc512";
  entry "sunny yellow" "#fff917";
  entry "sunshine yellow" "#fffd37";
  entry "swamp green" "#748500";
  entry "swamp" "#698339";
  entry "tan brown" "#ab7e4c";
  entry "tan green" "#a9be70";
  entry "tan" "#d1b26f";
  entry "tangerine" "#ff9408";
  entry "taupe" "#b9a281";
  entry "tea green" "#bdf8a3";
  entry "tea" "#65ab7c";
  entry "teal blue" "#01889f";
  entry "teal green" "#25a36f";
  entry "teal" "#029386";
  entry "tealish green" "#0cdc73";
  entry "tealish" "#24bca8";
  entry "terra cotta" "#c9643b";
  entry "terracota" "#cb6843";
  entry "terracotta" "#ca6641";
  entry "tiffany blue" "#7bf2da";
  entry "tomato red" "#ec2d01";
  entry "tomato" "#ef4026";
  entry "topaz" "#13bbaf";
  entry "toupe" "#c7ac7d";
  entry "toxic green" "#61de2a";
  entry "tree green" "#2a7e19";
  entry "true blue" "#010fcc";
  entry "true green" "#089404";
  entry "turquoise blue" "#06b1c4";
  entry "turquoise green" "#04f489";
  entry "turquoise" "#06c2ac";
  entry "turtle green" "#75b84f";
  entry "twilight blue" "#0a437a";
  entry "twilight" "#4e518b";
  entry "ugly blue" "#31668a";
  entry "ugly brown" "#7d7103";
  entry "ugly green" "#7a9703";
  entry "ugly pink" "#cd7584";
  entry "ugly purple" "#a442a0";
  entry "ugly yellow" "#d0c101";
  entry "ultramarine blue" "#1805db";
  entry "ultramarine" "#2000b1";
  entry "umber" "#b26400";
  entry "velvet" "#750851";
  entry "vermillion" "#f4320c";
  entry "very dark blue" "#000133";
  entry "very dark brown" "#1d0200";
  entry "very dark green" "#062e03";
  entry "very dark purple" "#2a0134";
  entry "very light blue" "#d5ffff";
  entry "very light brown" "#d3b683";
  entry "very light green" "#d1ffbd";
  entry "very light pink" "#fff4f2";
  entry "very light purple" "#f6cefc";
  entry "very pale blue" "#d6fffe";
  entry "very pale green" "#cffdbc";
  entry "vibrant blue" "#0339f8";
  entry "vibrant green" "#0add08";
  entry "vibrant purple" "#ad03de";
  entry "violet blue" "#510ac9";
  entry "violet pink" "#fb5ffc";
  entry "violet red" "#a50055";
  entry "violet" "#9a0eea";
  entry "viridian" "#1e9167";
  entry "vivid blue" "#152eff";
  entry "vivid green" "#2fef10";
  entry "vivid purple" "#9900fa";
  entry "vomit green" "#89a203";
  entry "vomit yellow" "#c7c10c";
  entry "vomit" "#a2a415";
  entry "warm blue" "#4b57db";
  entry "warm brown" "#964e02";
  entry "warm grey" "#978a84";
  entry "warm pink" "#fb5581";
  entry "warm purple" "#952e8f";
  entry "washed out green" "#bcf5a6";
  entry "water blue" "#0e87cc";
  entry "watermelon" "#fd4659";
  entry "weird green" "#3ae57f";
  entry "wheat" "#fbdd7e";
  entry "white" "#ffffff";
  entry "windows blue" "#3778bf";
  entry "wine red" "#7b0323";
  entry "wine" "#80013f";
  entry "wintergreen" "#20f986";
  entry "wisteria" "#a87dc2";
  entry "yellow brown" "#b79400";
  entry "yellow green" "#c0fb2d";
  entry "yellow ochre" "#cb9d06";
  entry "yellow orange" "#fcb001";
  entry "yellow tan" "#ffe36e";
  entry "yellow" "#ffff14";
  entry "yellow/green" "#c8fd3d";
  entry "yellowgreen" "#bbf90f";
  entry "yellowish brown" "#9b7a01";
  entry "yellowish green" "#b0dd16";
  entry "yellowish orange" "#ffab0f";
  entry "yellowish tan" "#fcfc81";
  entry "yellowish" "#faee66";
  entry "yellowy brown" "#ae8b0c";
  entry "yellowy green" "#bff128"].
(** 1091-1240 *)
Definition css4_colors : list (text * text) := [
  entry "aliceblue" "#F0F8FF";
  entry "antiquewhite" "#FAEBD7";
  entry "aqua" "#00FFFF";
  entry "aquamarine" "#7FFFD4";
  entry "azure" "#F0FFFF";
  entry "beige" "#F5F5DC";
  entry "bisque" "#FFE4C4";
  entry "black" "#000000";
  entry "blanchedalmond" "#FFEBCD";
  entry "blue" "#0000FF";
  entry "blueviolet" "#8A2BE2";
  entry "brown" "#A52A2A";
  entry "burlywood" "#DEB887";
  entry "cadetblue" "#5F9EA0";
  entry "chartreuse" "#7FFF00";
  entry "chocolate" "#D2691E";
  entry "coral" "#FF7F50";
  entry "cornflowerblue" "#6495ED";
  entry "cornsilk" "#FFF8DC";
  entry "crimson" "#DC143C";
  entry "cyan" "#00FFFF";
  entry "darkblue" "#00008B";
  entry "darkcyan" "#008B8B";
  entry "darkgoldenrod" "#B8860B";
  entry "darkgray" "#A9A9A9";
  entry "darkgreen" "#006400";
  entry "darkgrey" "#A9A9A9";
  entry "darkkhaki" "#BDB76B";
  entry "darkmagenta" "#8B008B";
  entry "darkolivegreen" "#556B2F";
  entry "darkorange" "#FF8C00";
  entry "darkorchid" "#9932CC";
  entry "darkred" "#8B0000";
  entry "darksalmon" "#E9967A";
  entry "darkseagreen" "#8FBC8F";
  entry "darkslateblue" "#483D8B";
  entry "darkslategray" "#2F4F4F";
  entry "darkslategrey" "#2F4F4F";
  entry "darkturquoise" "#00CED1";
  entry "darkviolet" "#9400D3";
  entry "deeppink" "#FF1493";
  entry "deepskyblue" "#00BFFF";
  entry "dimgray" "#696969";
  entry "dimgrey" "#696969";
  entry "dodgerblue" "#1E90FF";
  entry "firebrick" "#B22222";
  entry "floralwhite" "#FFFAF0";
  entry "forestgreen" "#228B22";
  entry "fuchsia" "#FF00FF";
  entry "gainsboro" "#DCDCDC";
  entry "ghostwhite" "#F8F8FF";
  entry "gold" "#FFD700";
  entry "goldenrod" "#DAA520";
  entry "gray" "#808080";
  entry "green" "#008000";
  entry "greenyellow" "#ADFF2F";
  entry "grey" "#808080";
  entry "honeydew" "#F0FFF0";
  entry "hotpink" "#FF69B4";
  entry "indianred" "#CD5C5C";
  entry "indigo" "#4B0082";
  entry "ivory" "#FFFFF0";
  entry "khaki" "#F0E68C";
  entry "lavender" "#E6E6FA";
  entry "lavenderblush" "#FFF0F5";
  entry "lawngreen" "#7CFC00";
  entry "lemonchiffon" "#FFFACD";
  entry "lightblue" "#ADD8E6";
  entry "lightcoral" "#F08080";
  entry "lightcyan" "#E0FFFF";
  entry "lightgoldenrodyellow" "#FAFAD2";
  entry "lightgray" "#D3D3D3";
  entry "lightgreen" "#90EE90";
  entry "lightgrey" "#D3D3D3";
  entry "lightpink" "#FFB6C1";
  entry "lightsalmon" "#FFA07A";
  entry "lightseagreen" "#20B2AA";
  entry "lightskyblue" "#87CEFA";
  entry "lightslategray" "#778899";
  entry "lightslategrey" "#778899";
  entry "lightsteelblue" "#B0C4DE";
  entry "lightyellow" "#FFFFE0";
  entry "lime" "#00FF00";
  entry "limegreen" "#32CD32";
  entry "linen" "#FAF0E6";
  entry "magenta" "#FF00FF";
  entry "maroon" "#800000";
  entry "mediumaquamarine" "#66CDAA";
  entry "mediumblue" "#0000CD";
  entry "mediumorchid" "#BA55D3";
  entry "mediumpurple" "#9370DB";
  entry "mediumseagreen" "#3CB371";
  entry "mediumslateblue" "#7B68EE";
  entry "mediumspringgreen" "#00FA9A";
  entry "mediumturquoise" "#48D1CC";
  entry "mediumvioletred" "#C71585";
  entry "midnightblue" "#191970";
  entry "mintcream" "#F5FFFA";
  entry "mistyrose" "#FFE4E1";
  entry "moccasin" "#FFE4B5";
  entry "navajowhite" "#FFDEAD";
  entry "navy" "#000080";
  entry "oldlace" "#FDF5E6";
  entry "olive" "#808000";
  entry "olivedrab" "#6B8E23";
  entry "orange" "#FFA500";
  entry "orangered" "#FF4500";
  entry "orchid" "#DA70D6";
  entry "palegoldenrod" "#EEE8AA";
  entry "palegreen" "#98FB98";
  entry "paleturquoise" "#AFEEEE";
  entry "palevioletred" "#DB7093";
  entry "papayawhip" "#FFEFD5";
  entry "peachpuff" "#FFDAB9";
  entry "peru" "#CD853F";
  entry "pink" "#FFC0CB";
  entry "plum" "#DDA0DD";
  entry "powderblue" "#B0E0E6";
  entry "purple" "#800080";
  entry "rebeccapurple" "#663399";
  entry "red" "#FF0000";
  entry "rosybrown" "#BC8F8F";
  entry "royalblue" "#4169E1";
  entry "saddlebrown" "#8B4513";
  entry "salmon" "#FA8072";
  entry "sandybrown" "#F4A460";
  entry "seagreen" "#2E8B57";
  entry "seashell" "#FFF5EE";
  entry "sienna" "#A0522D";
  entry "silver" "#C0C0C0";
  entry "skyblue" "#87CEEB";
  entry "slateblue" "#6A5ACD";
  entry "slategray" "#708090";
  entry "slategrey" "#708090";
  entry "snow" "#FFFAFA";
  entry "springgreen" "#00FF7F";
  entry "steelblue" "#4682B4";
  entry "tan" "#D2B48C";
  entry "teal" "#008080";
  entry "thistle" "#D8BFD8";
  entry "tomato" "#FF6347";
  entry "turquoise" "#40E0D0";
  entry "violet" "#EE82EE";
  entry "wheat" "#F5DEB3";
  entry "white" "#FFFFFF";
  entry "whitesmoke" "#F5F5F5";
  entry "yellow" "#FFFF00";
  entry "yellowgreen" "#9ACD32"].
(** 1245-1393 *)
Definition qml_colors : list (text * text) := [
  entry "aliceblue" "#f0f8ff";
  entry "antiquewhite" "#faebd7";
  entry "aqua" "#00ffff";
  entry "aquamarine" "#7fffd4";
  entry "azure" "#f0ffff";
  entry "beige" "#f5f5dc";
  entry "bisque" "#ffe4c4";
  entry "black" "#000000";
  entry "blanchedalmond" "#ffebcd";
  entry "blue" "#0000ff";
  entry "blueviolet" "#8a2be2";
  entry "brown" "#a52a2a";
  entry "burlywood" "#deb887";
  entry "cadetblue" "#5f9ea0";
  entry "chartreuse" "#7fff00";
  entry "chocolate" "#d2691e";
  entry "coral" "#ff7f50";
  entry "cornflowerblue" "#6495ed";
  entry "cornsilk" "#fff8dc";
  entry "crimson" "#dc143c";
  entry "cyan" "#00ffff";
  entry "darkblue" "#00008b";
  entry "darkcyan" "#008b8b";
  entry "darkgoldenrod" "#b8860b";
  entry "darkgray" "#a9a9a9";
  entry "darkgreen" "#006400";
  entry "darkgrey" "#a9a9a9";
  entry "darkkhaki" "#bdb76b";
  entry "darkmagenta" "#8b008b";
  entry "darkolivegreen" "#556b2f";
  entry "darkorange" "#ff8c00";
  entry "darkorchid" "#9932cc";
  entry "darkred" "#8b0000";
  entry "darksalmon" "#e9967a";
  entry "darkseagreen" "#8fbc8f";
  entry "darkslateblue" "#483d8b";
  entry "darkslategray" "#2f4f4f";
  entry "darkslategrey" "#2f4f4f";
  entry "darkturquoise" "#00ced1";
  entry "darkviolet" "#9400d3";
  entry "deeppink" "#ff1493";
  entry "deepskyblue" "#00bfff";
  entry "dimgray" "#696969";
  entry "dimgrey" "#696969";
  entry "dodgerblue" "#1e90ff";
  entry "firebrick" "#b22222";
  entry "floralwhite" "#fffaf0";
  entry "forestgreen" "#228b22";
  entry "fuchsia" "#ff00ff";
  entry "gainsboro" "#dcdcdc";
  entry "ghostwhite" "#f8f8ff";
  entry "gold" "#ffd700";
  entry "goldenrod" "#daa520";
  entry "gray" "#808080";
  entry "green" "#008000";
  entry "greenyellow" "#adff2f";
  entry "grey" "#808080";
  entry "honeydew" "#f0fff0";
  entry "hotpink" "#ff69b4";
  entry "indianred" "#cd5c5c";
  entry "indigo" "#4b0082";
  entry "ivory" "#fffff0";
  entry "khaki" "#f0e68c";
  entry "lavender" "#e6e6fa";
  entry "lavenderblush" "#fff0f5";
  entry "lawngreen" "#7cfc00";
  entry "lemonchiffon" "#fffacd";
  entry "lightblue" "#add8e6";
  entry "lightcoral" "#f08080";
  entry "lightcyan" "#e0ffff";
  entry "lightgoldenrodyellow" "#fafad2";
  entry "lightgray" "#d3d3d3";
  entry "lightgreen" "#90ee90";
  entry "lightgrey" "#d3d3d3";
  entry "lightpink" "#ffb6c1";
  entry "lightsalmon" "#ffa07a";
  entry "lightseagreen" "#20b2aa";
  entry "lightskyblue" "#87cefa";
  entry "lightslategray" "#778899";
  entry "lightslategrey" "#778899";
  entry "lightsteelblue" "#b0c4de";
  entry "lightyellow" "#ffffe0";
  entry "lime" "#00ff00";
  entry "limegreen" "#32cd32";
  entry "linen" "#faf0e6";
  entry "magenta" "#ff00ff";
  entry "maroon" "#800000";
  entry "mediumaquamarine" "#66cdaa";
  entry "mediumblue" "#0000cd";
  entry "mediumorchid" "#ba55d3";
  entry "mediumpurple" "#9370db";
  entry "mediumseagreen" "#3cb371";
  entry "mediumslateblue" "#7b68ee";
  entry "mediumspringgreen" "#00fa9a";
  entry "mediumturquoise" "#48d1cc";
  entry "mediumvioletred" "#c71585";
  entry "midnightblue" "#191970";
  entry "mintcream" "#f5fffa";
  entry "mistyrose" "#ffe4e1";
  entry "moccasin" "#ffe4b5";
  entry "navajowhite" "#ffdead";
  entry "navy" "#000080";
  entry "oldlace" "#fdf5e6";
  entry "olive" "#808000";
  entry "olivedrab" "#6b8e23";
  entry "orange" "#ffa500";
  entry "orangered" "#ff4500";
  entry "orchid" "#da70d6";
  entry "palegoldenrod" "#eee8aa";
  entry "palegreen" "#98fb98";
  entry "paleturquoise" "#afeeee";
  entry "palevioletred" "#db7093";
  entry "papayawhip" "#ffefd5";
  entry "peachpuff" "#ffdab9";
  entry "peru" "#cd853f";
  entry "pink" "#ffc0cb";
  entry "plum" "#dda0dd";
  entry "powderblue" "#b0e0e6";
  entry "purple" "#800080";
  entry "red" "#ff0000";
  entry "rosybrown" "#bc8f8f";
  entry "royalblue" "#4169e1";
  entry "saddlebrown" "#8b4513";
  entry "salmon" "#fa8072";
  entry "sandybrown" "#f4a460";
  entry "seagreen" "#2e8b57";
  entry "seashell" "#fff5ee";
  entry "sienna" "#a0522d";
  entry "silver" "#c0c0c0";
  entry "skyblue" "#87ceeb";
  entry "slateblue" "#6a5acd";
  entry "slategray" "#708090";
  entry "slategrey" "#708090";
  entry "snow" "#fffafa";
  entry "springgreen" "#00ff7f";
  entry "steelblue" "#4682b4";
  entry "tan" "#d2b48c";
  entry "teal" "#008080";
  entry "thistle" "#d8bfd8";
  entry "tomato" "#ff6347";
  entry "turquoise" "#40e0d0";
  entry "violet" "#ee82ee";
  entry "wheat" "#f5deb3";
  entry "white" "#ffffff";
  entry "whitesmoke" "#f5f5f5";
  entry "yellow" "#ffff00";
  entry "yellowgreen" "#9acd32"].
(** 1397-1415 *)
Definition valentina_names : list string := ["black"; "blue"; "cornflowerblue"; "darkBlue"; "darkGreen"; "darkRed"; "darkviolet"; "deeppink"; "deepskyblue"; "goldenrod"; "green"; "lightsalmon"; "lime"; "mediumseagreen"; "orange"; "violet"; "yellow"]%string.
(** 1416 *)
Definition valentina_colors : list (text * text) := [
  entry "black" "#000000";
  entry "blue" "#0000ff";
  entry "cornflowerblue" "#6495ed";
  entry "darkBlue" "#00008b";
  entry "darkGreen" "#006400";
  entry "darkRed" "#8b0000";
  entry "darkviolet" "#9400d3";
  entry "deeppink" "#ff1493";
  entry "deepskyblue" "#00bfff";
  entry "goldenrod" "#daa520";
  entry "green" "#008000";
  entry "lightsalmon" "#ffa07a";
  entry "lime" "#00ff00";
  entry "mediumseagreen" "#3cb371";
  entry "orange" "#ffa500";
  entry "violet" "#ee82ee";
  entry "yellow" "#ffff00"].
(** Color/__init__.py 37-44: the order *)
Definition color_sets : list (text * text) := base_colors ++ tableau_colors ++ xkcd_colors ++ css4_colors ++ qml_colors ++ valentina_colors.
