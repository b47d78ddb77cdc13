(** * The screenshots of README.md, transcribed by tools/gen_shots.py

    doc/short_greeting.png and doc/goose_poem.png have three colours each: ink (51, 51, 51),
    screen (167, 186, 202) and the page around the screen (100, 129, 120). *)
From Coq Require Import String.
From Verif Require Import Prim.
Local Open Scope string_scope.

(** doc/short_greeting.png, 351 by 102 pixels *)
Definition short_greeting_png : list string := [
"+++++++++++++++++++++++++++++++++++++++++++++++++++++++++++++++++++++++++++++++++++++++++++++++++++++++++++++++++++++++++++++++++++++++++++++++++++++++++++++++++++++++++++++++++++++++++++++++++++++++++++++++++++++++++++++++++++++++++++++++++++++++++++++++++++++++++++++++++++++++++++++++++++++++++++++++++++++++++++++++++++++++++++++++++++++++++++++++";
"+++++++++++++++++++++++++++++++++++++++++++++++++++++++++++++++++++++++++++++++++++++++++++++++++++++++++++++++++++++++++++++++++++++++++++++++++++++++++++++++++++++++++++++++++++++++++++++++++++++++++++++++++++++++++++++++++++++++++++++++++++++++++++++++++++++++++++++++++++++++++++++++++++++++++++++++++++++++++++++++++++++++++++++++++++++++++++++++";
"+++++++++++++++++++++++++++++++++++++++++++++++++++++++++++++++++++++++++++++++++++++++++++++++++++++++++++++++++++++++++++++++++++++++++++++++++++++++++++++++++++++++++++++++++++++++++++++++++++++++++++++++++++++++++++++++++++++++++++++++++++++++++++++++++++++++++++++++++++++++++++++++++++++++++++++++++++++++++++++++++++++++++++++++++++++++++++++++";
"+++++++++++++++++++++++++++++++++++++++++++++++++++++++++++++++++++++++++++++++++++++++++++++++++++++++++++++++++++++++++++++++++++++++++++++++++++++++++++++++++++++++++++++++++++++++++++++++++++++++++++++++++++++++++++++++++++++++++++++++++++++++++++++++++++++++++++++++++++++++++++++++++++++++++++++++++++++++++++++++++++++++++++++++++++++++++++++++";
"+++++++++++++++++++++++++++++++++++++++++++++++++++++++++++++++++++++++++++++++++++++++++++++++++++++++++++++++++++++++++++++++++++++++++++++++++++++++++++++++++++++++++++++++++++++++++++++++++++++++++++++++++++++++++++++++++++++++++++++++++++++++++++++++++++++++++++++++++++++++++++++++++++++++++++++++++++++++++++++++++++++++++++++++++++++++++++++++";
"+++++++++++++++++++++++++++++++++++++++++++++++++++++++++++++++++++++++++++++++++++++++++++++++++++++++++++++++++++++++++++++++++++++++++++++++++++++++++++++++++++++++++++++++++++++++++++++++++++++++++++++++++++++++++++++++++++++++++++++++++++++++++++++++++++++++++++++++++++++++++++++++++++++++++++++++++++++++++++++++++++++++++++++++++++++++++++++++";
"+++++++++++++++++++++++++++++++++++++++++++++++++++++++++++++++++++++++++++++++++++++++++++++++++++++++++++++++++++++++++++++++++++++++++++++++++++++++++++++++++++++++++++++++++++++++++++++++++++++++++++++++++++++++++++++++++++++++++++++++++++++++++++++++++++++++++++++++++++++++++++++++++++++++++++++++++++++++++++++++++++++++++++++++++++++++++++++++";
"+++++++++++++++++++++++++++++++++++++++++++++++++++++++++++++++++++++++++++++++++++++++++++++++++++++++++++++++++++++++++++++++++++++++++++++++++++++++++++++++++++++++++++++++++++++++++++++++++++++++++++++++++++++++++++++++++++++++++++++++++++++++++++++++++++++++++++++++++++++++++++++++++++++++++++++++++++++++++++++++++++++++++++++++++++++++++++++++";
"+++++++................................................................................................................................................................................................................................................................................................................................................++++++++";
"+++++++................................................................................................................................................................................................................................................................................................................................................++++++++";
"+++++++................................................................................................................................................................................................................................................................................................................................................++++++++";
"+++++++................................................................................................................................................................................................................................................................................................................................................++++++++";
"+++++++................................................................................................................................................................................................................................................................................................................................................++++++++";
"+++++++................................................................................................................................................................................................................................................................................................................................................++++++++";
"+++++++................................................................................................................................................................................................................................................................................................................................................++++++++";
"+++++++................................................................................................................................................................................................................................................................................................................................................++++++++";
"+++++++................................................................................................................................................................................................................................................................................................................................................++++++++";
"+++++++................................................................................................................................................................................................................................................................................................................................................++++++++";
"+++++++................................................................................................................................................................................................................................................................................................................................................++++++++";
"+++++++................................................................................................................................................................................................................................................................................................................................................++++++++";
"+++++++.......##........##................##...##.............................................................................##...........##...##.....................................................................................................................................................................................................++++++++";
"+++++++.......##........##................##...##.............................................................................##...........##...##.....................................................................................................................................................................................................++++++++";
"+++++++.......##........##................##...##.............................................................................##...........##...##.....................................................................................................................................................................................................++++++++";
"+++++++.......##........##................##...##.............................................................................##...........##...##.....................................................................................................................................................................................................++++++++";
"+++++++.......##........##.....######.....##...##.....######...................##......##......##.....######.....##..######...##.....########...##.....................................................................................................................................................................................................++++++++";
"+++++++.......##........##.....######.....##...##.....######...................##......##......##.....######.....##..######...##.....########...##.....................................................................................................................................................................................................++++++++";
"+++++++.......##........##...##......##...##...##...##......##.................##......##......##...##......##...####.........##...##......##...##.....................................................................................................................................................................................................++++++++";
"+++++++.......##........##...##......##...##...##...##......##.................##......##......##...##......##...####.........##...##......##...##.....................................................................................................................................................................................................++++++++";
"+++++++.......############...##......##...##...##...##......##...................##..##..##..##.....##......##...##...........##...##......##...##.....................................................................................................................................................................................................++++++++";
"+++++++.......############...##......##...##...##...##......##...................##..##..##..##.....##......##...##...........##...##......##...##.....................................................................................................................................................................................................++++++++";
"+++++++.......##........##...##########...##...##...##......##...................##..##..##..##.....##......##...##...........##...##......##...##.....................................................................................................................................................................................................++++++++";
"+++++++.......##........##...##########...##...##...##......##...................##..##..##..##.....##......##...##...........##...##......##...##.....................................................................................................................................................................................................++++++++";
"+++++++.......##........##...##...........##...##...##......##.....................##......##.......##......##...##...........##...##......##...##.....................................................................................................................................................................................................++++++++";
"+++++++.......##........##...##...........##...##...##......##.....................##......##.......##......##...##...........##...##......##...##.....................................................................................................................................................................................................++++++++";
"+++++++.......##........##...##......##...##...##...##......##.....................##......##.......##......##...##...........##...##......##..........................................................................................................................................................................................................++++++++";
"+++++++.......##........##...##......##...##...##...##......##.....................##......##.......##......##...##...........##...##......##..........................................................................................................................................................................................................++++++++";
"+++++++.......##........##.....######.....##...##.....######.......##..............##......##.........######.....##...........##.....########...##.....................................................................................................................................................................................................++++++++";
"+++++++.......##........##.....######.....##...##.....######.......##..............##......##.........######.....##...........##.....########...##.....................................................................................................................................................................................................++++++++";
"+++++++............................................................##..................................................................................................................................................................................................................................................................................++++++++";
"+++++++............................................................##..................................................................................................................................................................................................................................................................................++++++++";
"+++++++..........................................................##....................................................................................................................................................................................................................................................................................++++++++";
"+++++++..........................................................##....................................................................................................................................................................................................................................................................................++++++++";
"+++++++................................................................................................................................................................................................................................................................................................................................................++++++++";
"+++++++................................................................................................................................................................................................................................................................................................................................................++++++++";
"+++++++................................................................................................................................................................................................................................................................................................................................................++++++++";
"+++++++........................................................................#..........................#............................................................................................................................................................................................................................................++++++++";
"+++++++..........................................................................#.......................#..#..........................................................................................................................................................................................................................................++++++++";
"+++++++..........................................................................#.......................#..#..........................................................................................................................................................................................................................................++++++++";
"+++++++........................................................................##.##.#..#..#..#..#..#..##.##.#.........................................................................................................................................................................................................................................++++++++";
"+++++++..........................................................................#..#..#..#..#..#..#..#..#..#..........................................................................................................................................................................................................................................++++++++";
"+++++++..........................................................................#..#..#..#..#..#..#..#..#..#..........................................................................................................................................................................................................................................++++++++";
"+++++++.......##........##................##...##..............................##.#..#..#..#..#..#..#..#..##.....##....................................................................................................................................................................................................................................++++++++";
"+++++++.......##........##................##...##................................#..#..#..#..#..#..#..#..#..#....##....................................................................................................................................................................................................................................++++++++";
"+++++++.......##........##................##...##................................#..#..#..#..#..#..#..#..#.......##....................................................................................................................................................................................................................................++++++++";
"+++++++.......##........##................##...##..............................#..#..##.##.#..#..##.##.#..#......##....................................................................................................................................................................................................................................++++++++";
"+++++++.......##........##.....######.....##...##.....######.....................#..#####.#..#..#..#####.#.......##....................................................................................................................................................................................................................................++++++++";
"+++++++.......##........##.....######.....##...##.....######.....................#..##.#..#..#..#..#..##.#.......##....................................................................................................................................................................................................................................++++++++";
"+++++++.......##........##...##......##...##...##...##......##.................#..##.#..#..#..#..#..#..##.#......##....................................................................................................................................................................................................................................++++++++";
"+++++++.......##........##...##......##...##...##...##......##...................##.#..#..#..#..#..#..#..#.......##....................................................................................................................................................................................................................................++++++++";
"+++++++.......############...##......##...##...##...##......##...................#..#..####..#..#####.#..#.......##....................................................................................................................................................................................................................................++++++++";
"+++++++.......############...##......##...##...##...##......##.................#..#..##.##.##.##.##.##.#..#......##....................................................................................................................................................................................................................................++++++++";
"+++++++.......##........##...##########...##...##...##......##...................#..#..#..#..#..#..#..#..#..#....##....................................................................................................................................................................................................................................++++++++";
"+++++++.......##........##...##########...##...##...##......##.........................#..#..#..#..#.............##....................................................................................................................................................................................................................................++++++++";
"+++++++.......##........##...##...........##...##...##......##.................#..#..#..#..##.##.#..#..#..#..#...##....................................................................................................................................................................................................................................++++++++";
"+++++++.......##........##...##...........##...##...##......##...................#..#..#..#..##.#..#..#..#..#....##....................................................................................................................................................................................................................................++++++++";
"+++++++.......##........##...##......##...##...##...##......##.........................#..#..#..#..#..#................................................................................................................................................................................................................................................++++++++";
"+++++++.......##........##...##......##...##...##...##......##.................#..#..##.#..#..#..#..##.#..#............................................................................................................................................................................................................................................++++++++";
"+++++++.......##........##.....######.....##...##.....######.......##............#..##.##.#..#..##.##.##.#..#....##....................................................................................................................................................................................................................................++++++++";
"+++++++.......##........##.....######.....##...##.....######.......##............#..#.....#..#..#..#..#..#.......##....................................................................................................................................................................................................................................++++++++";
"+++++++............................................................##..........#..#..##.##.#..#..##.##.#..#............................................................................................................................................................................................................................................++++++++";
"+++++++............................................................##............#..########.##.#######..#.............................................................................................................................................................................................................................................++++++++";
"+++++++..........................................................##.................#..##############.#................................................................................................................................................................................................................................................++++++++";
"+++++++..........................................................##...............#..#..##.##.##.##.#..#...............................................................................................................................................................................................................................................++++++++";
"+++++++.............................................................................#..#..##.##.##.#..#................................................................................................................................................................................................................................................++++++++";
"+++++++................................................................................#..#..#..#..#...................................................................................................................................................................................................................................................++++++++";
"+++++++.................................................................................#..#..#..#.....................................................................................................................................................................................................................................................++++++++";
"+++++++................................................................................................................................................................................................................................................................................................................................................++++++++";
"+++++++................................................................................................................................................................................................................................................................................................................................................++++++++";
"+++++++................................................................................................................................................................................................................................................................................................................................................++++++++";
"+++++++................................................................................................................................................................................................................................................................................................................................................++++++++";
"+++++++................................................................................................................................................................................................................................................................................................................................................++++++++";
"+++++++................................................................................................................................................................................................................................................................................................................................................++++++++";
"+++++++................................................................................................................................................................................................................................................................................................................................................++++++++";
"+++++++................................................................................................................................................................................................................................................................................................................................................++++++++";
"+++++++................................................................................................................................................................................................................................................................................................................................................++++++++";
"+++++++................................................................................................................................................................................................................................................................................................................................................++++++++";
"+++++++................................................................................................................................................................................................................................................................................................................................................++++++++";
"+++++++................................................................................................................................................................................................................................................................................................................................................++++++++";
"+++++++................................................................................................................................................................................................................................................................................................................................................++++++++";
"+++++++................................................................................................................................................................................................................................................................................................................................................++++++++";
"+++++++................................................................................................................................................................................................................................................................................................................................................++++++++";
"+++++++................................................................................................................................................................................................................................................................................................................................................++++++++";
"+++++++................................................................................................................................................................................................................................................................................................................................................++++++++";
"+++++++................................................................................................................................................................................................................................................................................................................................................++++++++";
"+++++++................................................................................................................................................................................................................................................................................................................................................++++++++";
"+++++++................................................................................................................................................................................................................................................................................................................................................++++++++";
"+++++++................................................................................................................................................................................................................................................................................................................................................++++++++";
"+++++++................................................................................................................................................................................................................................................................................................................................................++++++++";
"+++++++................................................................................................................................................................................................................................................................................................................................................++++++++";
"+++++++................................................................................................................................................................................................................................................................................................................................................++++++++";
"+++++++................................................................................................................................................................................................................................................................................................................................................++++++++";
"+++++++................................................................................................................................................................................................................................................................................................................................................++++++++"
].

(** doc/goose_poem.png, 346 by 146 pixels *)
Definition goose_poem_png : list string := [
"++++++++++++++++++++++++++++++++++++++++++++++++++++++++++++++++++++++++++++++++++++++++++++++++++++++++++++++++++++++++++++++++++++++++++++++++++++++++++++++++++++++++++++++++++++++++++++++++++++++++++++++++++++++++++++++++++++++++++++++++++++++++++++++++++++++++++++++++++++++++++++++++++++++++++++++++++++++++++++++++++++++++++++++++++++++++++";
"++++++++++++++++++++++++++++++++++++++++++++++++++++++++++++++++++++++++++++++++++++++++++++++++++++++++++++++++++++++++++++++++++++++++++++++++++++++++++++++++++++++++++++++++++++++++++++++++++++++++++++++++++++++++++++++++++++++++++++++++++++++++++++++++++++++++++++++++++++++++++++++++++++++++++++++++++++++++++++++++++++++++++++++++++++++++++";
"++++++++++++++++++++++++++++++++++++++++++++++++++++++++++++++++++++++++++++++++++++++++++++++++++++++++++++++++++++++++++++++++++++++++++++++++++++++++++++++++++++++++++++++++++++++++++++++++++++++++++++++++++++++++++++++++++++++++++++++++++++++++++++++++++++++++++++++++++++++++++++++++++++++++++++++++++++++++++++++++++++++++++++++++++++++++++";
"++++++++++++++++++++++++++++++++++++++++++++++++++++++++++++++++++++++++++++++++++++++++++++++++++++++++++++++++++++++++++++++++++++++++++++++++++++++++++++++++++++++++++++++++++++++++++++++++++++++++++++++++++++++++++++++++++++++++++++++++++++++++++++++++++++++++++++++++++++++++++++++++++++++++++++++++++++++++++++++++++++++++++++++++++++++++++";
"+++++................................................................................................................................................................................................................................................................................................................................................+++++";
"+++++................................................................................................................................................................................................................................................................................................................................................+++++";
"+++++................................................................................................................................................................................................................................................................................................................................................+++++";
"+++++................................................................................................................................................................................................................................................................................................................................................+++++";
"+++++................................................................................................................................................................................................................................................................................................................................................+++++";
"+++++................................................................................................................................................................................................................................................................................................................................................+++++";
"+++++................................................................................................................................................................................................................................................................................................................................................+++++";
"+++++................................................................................................................................................................................................................................................................................................................................................+++++";
"+++++................................................................................................................................................................................................................................................................................................................................................+++++";
"+++++.................#........##...........................................................#........##...........................................................#........##........................................................................................................................................................................+++++";
"+++++............###.##........##......................................................###.##........##......................................................###.##........##........................................................................................................................................................................+++++";
"+++++.........###########...#.###.#.#...............................................###########...#.###.#.#...............................................###########...#.###.#.#....................................................................................................................................................................+++++";
"+++++.........####...##.##..#########...............................................####...##.##..#########...............................................####...##.##..#########....................................................................................................................................................................+++++";
"+++++.........#.###..##.##..###.#.###...............................................#.###..##.##..###.#.###...............................................#.###..##.##..###.#.###....................................................................................................................................................................+++++";
"+++++............#...##..#..##.#...##..................................................#...##..#..##.#...##..................................................#...##..#..##.#...##....................................................................................................................................................................+++++";
"+++++...........###..##.###.#####..##.................................................###..##.###.#####..##.................................................###..##.###.#####..##....................................................................................................................................................................+++++";
"+++++............#...##.....##.###.##..................................................#...##.....##.###.##..................................................#...##.....##.###.##....................................................................................................................................................................+++++";
"+++++.........#############.##..##.##...............................................#############.##..##.##...............................................#############.##..##.##....................................................................................................................................................................+++++";
"+++++.........#############.##.....##...............................................#############.##.....##...............................................#############.##.....##....................................................................................................................................................................+++++";
"+++++...........###..##.....##..#####.................................................###..##.....##..#####.................................................###..##.....##..#####....................................................................................................................................................................+++++";
"+++++............#...##..#..##..####...................................................#...##..#..##..####...................................................#...##..#..##..####.....................................................................................................................................................................+++++";
"+++++...........###..##.###.##........................................................###..##.###.##........................................................###..##.###.##...........................................................................................................................................................................+++++";
"+++++............#.#.##.##..##.#.#.#.#.................................................#.#.##.##..##.#.#.#.#.................................................#.#.##.##..##.#.#.#.#...................................................................................................................................................................+++++";
"+++++...........#######.##..##########................................................#######.##..##########................................................#######.##..##########...................................................................................................................................................................+++++";
"+++++........######..####...........##.............................................######..####...........##.............................................######..####...........##...................................................................................................................................................................+++++";
"+++++.........#####...###...........##..............................................#####...###...........##..............................................#####...###...........##...............###.................................................................................................................................................+++++";
"+++++............#....##...#.#.#.#..##............##...................................#....##...#.#.#.#..##............##...................................#....##...#.#.#.#..##..............####.................................................................................................................................................+++++";
"+++++...........###..###..#########.##...........####.................................###..###..#########.##...........####.................................###..###..#########.##..............####.................................................................................................................................................+++++";
"+++++............#...###...........###............####.................................#...###...........###............####.................................#...###...........###..............#####................................................................................................................................................+++++";
"+++++...........###.####..#........##..............####...............................###.####..#........##..............####...............................###.####..#........##................###.................................................................................................................................................+++++";
"+++++............#.###.#.##........##...............####...............................#.###.#.##........##...............####...............................#.###.#.##........##.................##.................................................................................................................................................+++++";
"+++++...........#####..####........##................####.............................#####..####........##................####.............................#####..####........##................###.................................................................................................................................................+++++";
"+++++.........####.....###.....######.................##............................####.....###.....######.................##............................####.....###.....######...............###..................................................................................................................................................+++++";
"+++++.........####......##......#####...............................................####......##......#####...............................................####......##......#####..............###...................................................................................................................................................+++++";
"+++++...........................................................................................................................................................................................#....................................................................................................................................................+++++";
"+++++................................................................................................................................................................................................................................................................................................................................................+++++";
"+++++................................................................................................................................................................................................................................................................................................................................................+++++";
"+++++................................................................................................................................................................................................................................................................................................................................................+++++";
"+++++................................................................................................................................................................................................................................................................................................................................................+++++";
"+++++................................................................................................................................................................................................................................................................................................................................................+++++";
"+++++................................................................................................................................................................................................................................................................................................................................................+++++";
"+++++................................................................................................................................................................................................................................................................................................................................................+++++";
"+++++.................##....##................................................................###........................................................................##..........................................................................................................................................................................+++++";
"+++++................###....##............................###############.....................##...........................................................#.#.#.#.#.#...##..........................................................................................................................................................................+++++";
"+++++................###....##...........................#################...................###........................######################............#############..##..........................................................................................................................................................................+++++";
"+++++................###....##...................########.......##...........................###........................######################.............#.#.#.#.###...##..........................................................................................................................................................................+++++";
"+++++................###....##...................#########.....###....................#.#.#.###.#.#.#.#.#.#.............######################..............#.#.#..##...##########...................................................................................................................................................................+++++";
"+++++..........#.#.#.###.#.###.#.#.#..............#.###.#......##....................######################.......................##.......................#######.##...##########...................................................................................................................................................................+++++";
"+++++..........######################...............##.....#############.............######################......................###.......................##.#.##.##...###.#.#.##...................................................................................................................................................................+++++";
"+++++..........######################...............##.....############..............##..................##.......................##.......................##...##.##..###......##...................................................................................................................................................................+++++";
"+++++..........##....###....##....###...............##.....##........###.............##.................###......................###.......................##...##.##..##..##..###...................................................................................................................................................................+++++";
"+++++..........##....###....##.....##...............##.....##...##...##..............##..................##.......................##.......................#######.##..##..##..##....................................................................................................................................................................+++++";
"+++++..........##....###....##....###...............##.....##...##...###.............##...###########...###............########################.............#.#.#..##.###..##..##....................................................................................................................................................................+++++";
"+++++..........##....###....##.....##...............##.....##...##...##..............##....##########....##............########################....................##..#...##..##....................................................................................................................................................................+++++";
"+++++..........##....###....##....###...............##.....##...##...###.............##...###......##...###............########################..........###############...##........................................................................................................................................................................+++++";
"+++++..........######################...............##.....##...##...##..............##....##......##....##......................####....................###############...###.......................................................................................................................................................................+++++";
"+++++..........######################...............##.....##...##...###.............##...###......##...###.....................######.............................###....####.......................................................................................................................................................................+++++";
"+++++..........###.#.###.#.###.#.#.##...............##..##.##...##...##..............##....##......##....##.....................###.##.....................#.#.#.#.###.....###.......................................................................................................................................................................+++++";
"+++++..........##....###....##....###..............#######.##...##...###.............##...###......##...###....................###..###....................#######.###....#####................####..................................................................................................................................................+++++";
"+++++..........##....###....##.....##...........#########..##...##...##..............##....##########....##...................####..###....................##...##.###....##.##...............######.................................................................................................................................................+++++";
"+++++..........##....###....##....###...........######.....##..###...###.............##...###########...###..................####....###...................##...##.###...###.##..............##....##................................................................................................................................................+++++";
"+++++..........##....###....##.....##............##...........###.##.................##....##............##.................####......###..................##...##.###...###.###............##.....##................................................................................................................................................+++++";
"+++++..........##....###....##....###........................####.####...............##...###...........###................####........####................#######.###..###...###............#.....##................................................................................................................................................+++++";
"+++++..........######################.......................####....###..............##..................##...............####..........####...............###.#.#.###.###.....##............##....##................................................................................................................................................+++++";
"+++++..........######################....................######......####............##.............#.#.###............######............#####.............##......#######.....###...........###..##.................................................................................................................................................+++++";
"+++++..........##..................##...................#####.........###............##.............#######............####................####..................########.......###...........#####..................................................................................................................................................+++++";
"+++++..........##.................###....................##............#.............##.............######.............###...................#...................####.##.........#.............###...................................................................................................................................................+++++";
"+++++................................................................................................................................................................................................................................................................................................................................................+++++";
"+++++................................................................................................................................................................................................................................................................................................................................................+++++";
"+++++................................................................................................................................................................................................................................................................................................................................................+++++";
"+++++................................................................................................................................................................................................................................................................................................................................................+++++";
"+++++................................................................................................................................................................................................................................................................................................................................................+++++";
"+++++................................................................................................................................................................................................................................................................................................................................................+++++";
"+++++................................................................................................................................................................................................................................................................................................................................................+++++";
"+++++................................................................................................................................................................................................................................................................................................................................................+++++";
"+++++...................###........................................#..................#.................###................#.........................................##..............................................................................................................................................................................+++++";
"+++++...................###.....................................#####................###.........##########................##....############........................##..............................................................................................................................................................................+++++";
"+++++...................###................................##########.................####.##############.................###....#############.......................##..............................................................................................................................................................................+++++";
"+++++..................###............................###########......................####.######......##................###..............##........................##..............................................................................................................................................................................+++++";
"+++++...........####################.............#############..........................###..#...##.....###..............###...............###.......................##..............................................................................................................................................................................+++++";
"+++++...........####################..............#####.#.###................................##..###...###...............##.......###########........................##.......#......................................................................................................................................................................+++++";
"+++++...........####################......................###................................##...##...##................##..###..############.......................##......####....................................................................................................................................................................+++++";
"+++++...........##...............###......................###.......###......................###..##...##...............###..##............##.............##########.###.....###.....................................................................................................................................................................+++++";
"+++++...........###..............###......................#############.............###.......##..###.##...............###..###............##.............#########..###....###......................................................................................................................................................................+++++";
"+++++...........##...............###..................###############...............####....#############.............########..###############..................##..###...###.......................................................................................................................................................................+++++";
"+++++...........###..............###..............##############......................####..##############.............#######..################................###..####.###........................................................................................................................................................................+++++";
"+++++...........##...............###..............#####...###..........................##....#.#.#.#.####.................###...#.#.#.###.#.#.#.................###..#######.........................................................................................................................................................................+++++";
"+++++...........####################......................###.......................................####.................###.....#.....##....#..................###..##.###..........................................................................................................................................................................+++++";
"+++++...........####################......................###.........###..........................###...................##......###...##...###................###...##..##..........................................................................................................................................................................+++++";
"+++++...........####################......................###############.........................###...................###..##..####..##..###.................##....##..###.........................................................................................................................................................................+++++";
"+++++...........##...............###..................#################.................##........##...................########....##..##.###.................###....##...###........................................................................................................................................................................+++++";
"+++++...........###..............###.............###############........................####################...........#######.....##.######..................###....##...####...................###.................................................................................................................................................+++++";
"+++++...........##...............###.............######...###..........................###.#################...........##............######..................###.....##....####.................####.................................................................................................................................................+++++";
"+++++...........###..............###......................###..........#...............##.........###..............................#########................###......##.....####................####.................................................................................................................................................+++++";
"+++++...........##...............###......................###..........##.............###.........##........................###...###..##.###..............###.......##......#####..............#####................................................................................................................................................+++++";
"+++++...........###.#.#.#.#.#.#.####......................###..........###............###.........###....................###########...##..###............###........##.......#####..............###.................................................................................................................................................+++++";
"+++++...........####################......................###..........##............###..........##...................######...###....##...###............#.........##.........##................##.................................................................................................................................................+++++";
"+++++...........####################......................###############...........###...........###..................###.............##....##..................######..........................###.................................................................................................................................................+++++";
"+++++...........##...............###.......................#############.............##........#####................................#####........................######.........................###..................................................................................................................................................+++++";
"+++++...........###..............###.........................#.#.#.#.#.........................#####................................####..........................#####........................###...................................................................................................................................................+++++";
"+++++...........................................................................................................................................................................................#....................................................................................................................................................+++++";
"+++++................................................................................................................................................................................................................................................................................................................................................+++++";
"+++++................................................................................................................................................................................................................................................................................................................................................+++++";
"+++++................................................................................................................................................................................................................................................................................................................................................+++++";
"+++++................................................................................................................................................................................................................................................................................................................................................+++++";
"+++++................................................................................................................................................................................................................................................................................................................................................+++++";
"+++++................................................................................................................................................................................................................................................................................................................................................+++++";
"+++++................................................................................................................................................................................................................................................................................................................................................+++++";
"+++++..............##................................#......##.....##..................##..........##................................##.....................#...........###..........................................................................................................................................................................+++++";
"+++++.............###...............................###.....##.....###.................##......#...##..##...............###..........##....................###...........##..........................................................................................................................................................................+++++";
"+++++.............###...#.#.#.#.#.#.#................###....##....###..................##.....###..##..###..............####..################..............####........###..........................................................................................................................................................................+++++";
"+++++............###....##############................##....##....##...................##.....##...##...###...............###.################...............####........##..........................................................................................................................................................................+++++";
"+++++............###....##############...........########################..............##.....##..###....##................##........##.......................##..#################..................................................................................................................................................................+++++";
"+++++...........###...........##..................#######################............#.###.#.###..##............................#.#.###.#.#.#.....................################...................................................................................................................................................................+++++";
"+++++...........###..##.......##.................###..................###...........########################...................###############....................##....###....###...................................................................................................................................................................+++++";
"+++++..........###...###......##..................##..###############.###...........########################.........................##...........................##.....##....##....................................................................................................................................................................+++++";
"+++++.........###...###.......##.................###.################.###..............##...###.#####.#.#.#............###...#.#.#.#.###.#.#.#............###.....##....###...###....................................................................................................................................................................+++++";
"+++++........#########........##......................##..........###..................##........##....................####..##################...........####....##.....##....#.....................................................................................................................................................................+++++";
"+++++.........#######.........##.....................################..................##.......###.....................####.##################.............####..#############......................................................................................................................................................................+++++";
"+++++.............###.........##......................###############..................##.......###########...............##.................................##...##############.....................................................................................................................................................................+++++";
"+++++............###..........##...................................##..................##.##....###########....................##############.....................##############.....................................................................................................................................................................+++++";
"+++++...........###...........##....................#.################.................#####...###......##.....................##############.....................##.##......###.....................................................................................................................................................................+++++";
"+++++..........###..###.......##...................###############.................########...#####....###.................#...##..........##.................#...##.###.....##......................................................................................................................................................................+++++";
"+++++.........##########......##............................##......................#####.....######...##..................##..##############.................##..##..##....###......................................................................................................................................................................+++++";
"+++++.........#########.......##..................######################............#..##....###..##..###..................##..##############.................##..##..###...###......................................................................................................................................................................+++++";
"+++++.........##..............##..................#####################................##....###..######..................###..##..........##................###.###...###.###.......................................................................................................................................................................+++++";
"+++++.........................##............................##.........................##...###....####..................###...##..........##...............###..##.....#####........................................................................................................................................................................+++++";
"+++++................##.......##..................#.#.#.#.#.###.#.#.#.#.#..............##..###.....####..................###...##############...............###..##......###.........................................................................................................................................................................+++++";
"+++++...........#######.......##.................########################..............##.###.....######.................##....##############...............###.###.....#####........................................................................................................................................................................+++++";
"+++++........#########################......................##.........................##..#.....###..####..............###....##..........##..............###..##....####.####......................................................................................................................................................................+++++";
"+++++.........#####....################.....................##......................#.###.....#####...#####............###.....##..........##.............###...##..#####...#####....................................................................................................................................................................+++++";
"+++++..................................................#######.......................####....#####......####............##.....##......######.............###..###.####......#####...................................................................................................................................................................+++++";
"+++++..................................................#######......................#####.....##..........##.............#.....##.......####....................#..##...........##...................................................................................................................................................................+++++";
"+++++................................................................................................................................................................................................................................................................................................................................................+++++";
"+++++................................................................................................................................................................................................................................................................................................................................................+++++";
"+++++................................................................................................................................................................................................................................................................................................................................................+++++";
"+++++................................................................................................................................................................................................................................................................................................................................................+++++";
"+++++................................................................................................................................................................................................................................................................................................................................................+++++";
"+++++................................................................................................................................................................................................................................................................................................................................................+++++";
"+++++................................................................................................................................................................................................................................................................................................................................................+++++";
"+++++................................................................................................................................................................................................................................................................................................................................................+++++";
"+++++................................................................................................................................................................................................................................................................................................................................................+++++"
].
