(** GENERATED from /repo/shamir/tables.go by transcription: each table literal of the Go
    source, entry by entry, as a list of bytes. *)
From Coq Require Import List.
From Coq.Init Require Import Byte.
Import ListNotations.

(** shamir/tables.go:8-40 [logTable] *)
Definition logTable : list byte :=
 [ x00; x00; x01; x19; x02; x32; x1a; xc6; x03; xdf; x33; xee; x1b; x68; xc7; x4b;
   x04; x64; xe0; x0e; x34; x8d; xef; x81; x1c; xc1; x69; xf8; xc8; x08; x4c; x71;
   x05; x8a; x65; x2f; xe1; x24; x0f; x21; x35; x93; x8e; xda; xf0; x12; x82; x45;
   x1d; xb5; xc2; x7d; x6a; x27; xf9; xb9; xc9; x9a; x09; x78; x4d; xe4; x72; xa6;
   x06; xbf; x8b; x62; x66; xdd; x30; xfd; xe2; x98; x25; xb3; x10; x91; x22; x88;
   x36; xd0; x94; xce; x8f; x96; xdb; xbd; xf1; xd2; x13; x5c; x83; x38; x46; x40;
   x1e; x42; xb6; xa3; xc3; x48; x7e; x6e; x6b; x3a; x28; x54; xfa; x85; xba; x3d;
   xca; x5e; x9b; x9f; x0a; x15; x79; x2b; x4e; xd4; xe5; xac; x73; xf3; xa7; x57;
   x07; x70; xc0; xf7; x8c; x80; x63; x0d; x67; x4a; xde; xed; x31; xc5; xfe; x18;
   xe3; xa5; x99; x77; x26; xb8; xb4; x7c; x11; x44; x92; xd9; x23; x20; x89; x2e;
   x37; x3f; xd1; x5b; x95; xbc; xcf; xcd; x90; x87; x97; xb2; xdc; xfc; xbe; x61;
   xf2; x56; xd3; xab; x14; x2a; x5d; x9e; x84; x3c; x39; x53; x47; x6d; x41; xa2;
   x1f; x2d; x43; xd8; xb7; x7b; xa4; x76; xc4; x17; x49; xec; x7f; x0c; x6f; xf6;
   x6c; xa1; x3b; x52; x29; x9d; x55; xaa; xfb; x60; x86; xb1; xbb; xcc; x3e; x5a;
   xcb; x59; x5f; xb0; x9c; xa9; xa0; x51; x0b; xf5; x16; xeb; x7a; x75; x2c; xd7;
   x4f; xae; xd5; xe9; xe6; xe7; xad; xe8; x74; xd6; xf4; xea; xa8; x50; x58; xaf ].

(** shamir/tables.go:44-44 [expTable] *)
Definition expTable : list byte :=
 [ x01; x02; x04; x08; x10; x20; x40; x80; x1d; x3a; x74; xe8; xcd; x87; x13; x26;
   x4c; x98; x2d; x5a; xb4; x75; xea; xc9; x8f; x03; x06; x0c; x18; x30; x60; xc0;
   x9d; x27; x4e; x9c; x25; x4a; x94; x35; x6a; xd4; xb5; x77; xee; xc1; x9f; x23;
   x46; x8c; x05; x0a; x14; x28; x50; xa0; x5d; xba; x69; xd2; xb9; x6f; xde; xa1;
   x5f; xbe; x61; xc2; x99; x2f; x5e; xbc; x65; xca; x89; x0f; x1e; x3c; x78; xf0;
   xfd; xe7; xd3; xbb; x6b; xd6; xb1; x7f; xfe; xe1; xdf; xa3; x5b; xb6; x71; xe2;
   xd9; xaf; x43; x86; x11; x22; x44; x88; x0d; x1a; x34; x68; xd0; xbd; x67; xce;
   x81; x1f; x3e; x7c; xf8; xed; xc7; x93; x3b; x76; xec; xc5; x97; x33; x66; xcc;
   x85; x17; x2e; x5c; xb8; x6d; xda; xa9; x4f; x9e; x21; x42; x84; x15; x2a; x54;
   xa8; x4d; x9a; x29; x52; xa4; x55; xaa; x49; x92; x39; x72; xe4; xd5; xb7; x73;
   xe6; xd1; xbf; x63; xc6; x91; x3f; x7e; xfc; xe5; xd7; xb3; x7b; xf6; xf1; xff;
   xe3; xdb; xab; x4b; x96; x31; x62; xc4; x95; x37; x6e; xdc; xa5; x57; xae; x41;
   x82; x19; x32; x64; xc8; x8d; x07; x0e; x1c; x38; x70; xe0; xdd; xa7; x53; xa6;
   x51; xa2; x59; xb2; x79; xf2; xf9; xef; xc3; x9b; x2b; x56; xac; x45; x8a; x09;
   x12; x24; x48; x90; x3d; x7a; xf4; xf5; xf7; xf3; xfb; xeb; xcb; x8b; x0b; x16;
   x2c; x58; xb0; x7d; xfa; xe9; xcf; x83; x1b; x36; x6c; xd8; xad; x47; x8e; x01;
   x02; x04; x08; x10; x20; x40; x80; x1d; x3a; x74; xe8; xcd; x87; x13; x26; x4c;
   x98; x2d; x5a; xb4; x75; xea; xc9; x8f; x03; x06; x0c; x18; x30; x60; xc0; x9d;
   x27; x4e; x9c; x25; x4a; x94; x35; x6a; xd4; xb5; x77; xee; xc1; x9f; x23; x46;
   x8c; x05; x0a; x14; x28; x50; xa0; x5d; xba; x69; xd2; xb9; x6f; xde; xa1; x5f;
   xbe; x61; xc2; x99; x2f; x5e; xbc; x65; xca; x89; x0f; x1e; x3c; x78; xf0; xfd;
   xe7; xd3; xbb; x6b; xd6; xb1; x7f; xfe; xe1; xdf; xa3; x5b; xb6; x71; xe2; xd9;
   xaf; x43; x86; x11; x22; x44; x88; x0d; x1a; x34; x68; xd0; xbd; x67; xce; x81;
   x1f; x3e; x7c; xf8; xed; xc7; x93; x3b; x76; xec; xc5; x97; x33; x66; xcc; x85;
   x17; x2e; x5c; xb8; x6d; xda; xa9; x4f; x9e; x21; x42; x84; x15; x2a; x54; xa8;
   x4d; x9a; x29; x52; xa4; x55; xaa; x49; x92; x39; x72; xe4; xd5; xb7; x73; xe6;
   xd1; xbf; x63; xc6; x91; x3f; x7e; xfc; xe5; xd7; xb3; x7b; xf6; xf1; xff; xe3;
   xdb; xab; x4b; x96; x31; x62; xc4; x95; x37; x6e; xdc; xa5; x57; xae; x41; x82;
   x19; x32; x64; xc8; x8d; x07; x0e; x1c; x38; x70; xe0; xdd; xa7; x53; xa6; x51;
   xa2; x59; xb2; x79; xf2; xf9; xef; xc3; x9b; x2b; x56; xac; x45; x8a; x09; x12;
   x24; x48; x90; x3d; x7a; xf4; xf5; xf7; xf3; xfb; xeb; xcb; x8b; x0b; x16; x2c;
   x58; xb0; x7d; xfa; xe9; xcf; x83; x1b; x36; x6c; xd8; xad; x47; x8e ].

(** shamir/tables.go:80-335 [mulTable] *)
Definition mulTable : list (list byte) :=
 [ [x00; x00; x00; x00; x00; x00; x00; x00; x00; x00; x00; x00; x00; x00; x00; x00; x00; x00; x00; x00; x00; x00; x00; x00; x00; x00; x00; x00; x00; x00; x00; x00; x00; x00; x00; x00; x00; x00; x00; x00; x00; x00; x00; x00; x00; x00; x00; x00; x00; x00; x00; x00; x00; x00; x00; x00; x00; x00; x00; x00; x00; x00; x00; x00; x00; x00; x00; x00; x00; x00; x00; x00; x00; x00; x00; x00; x00; x00; x00; x00; x00; x00; x00; x00; x00; x00; x00; x00; x00; x00; x00; x00; x00; x00; x00; x00; x00; x00; x00; x00; x00; x00; x00; x00; x00; x00; x00; x00; x00; x00; x00; x00; x00; x00; x00; x00; x00; x00; x00; x00; x00; x00; x00; x00; x00; x00; x00; x00; x00; x00; x00; x00; x00; x00; x00; x00; x00; x00; x00; x00; x00; x00; x00; x00; x00; x00; x00; x00; x00; x00; x00; x00; x00; x00; x00; x00; x00; x00; x00; x00; x00; x00; x00; x00; x00; x00; x00; x00; x00; x00; x00; x00; x00; x00; x00; x00; x00; x00; x00; x00; x00; x00; x00; x00; x00; x00; x00; x00; x00; x00; x00; x00; x00; x00; x00; x00; x00; x00; x00; x00; x00; x00; x00; x00; x00; x00; x00; x00; x00; x00; x00; x00; x00; x00; x00; x00; x00; x00; x00; x00; x00; x00; x00; x00; x00; x00; x00; x00; x00; x00; x00; x00; x00; x00; x00; x00; x00; x00; x00; x00; x00; x00; x00; x00; x00; x00; x00; x00; x00; x00; x00; x00; x00; x00; x00; x00];
   [x00; x01; x02; x03; x04; x05; x06; x07; x08; x09; x0a; x0b; x0c; x0d; x0e; x0f; x10; x11; x12; x13; x14; x15; x16; x17; x18; x19; x1a; x1b; x1c; x1d; x1e; x1f; x20; x21; x22; x23; x24; x25; x26; x27; x28; x29; x2a; x2b; x2c; x2d; x2e; x2f; x30; x31; x32; x33; x34; x35; x36; x37; x38; x39; x3a; x3b; x3c; x3d; x3e; x3f; x40; x41; x42; x43; x44; x45; x46; x47; x48; x49; x4a; x4b; x4c; x4d; x4e; x4f; x50; x51; x52; x53; x54; x55; x56; x57; x58; x59; x5a; x5b; x5c; x5d; x5e; x5f; x60; x61; x62; x63; x64; x65; x66; x67; x68; x69; x6a; x6b; x6c; x6d; x6e; x6f; x70; x71; x72; x73; x74; x75; x76; x77; x78; x79; x7a; x7b; x7c; x7d; x7e; x7f; x80; x81; x82; x83; x84; x85; x86; x87; x88; x89; x8a; x8b; x8c; x8d; x8e; x8f; x90; x91; x92; x93; x94; x95; x96; x97; x98; x99; x9a; x9b; x9c; x9d; x9e; x9f; xa0; xa1; xa2; xa3; xa4; xa5; xa6; xa7; xa8; xa9; xaa; xab; xac; xad; xae; xaf; xb0; xb1; xb2; xb3; xb4; xb5; xb6; xb7; xb8; xb9; xba; xbb; xbc; xbd; xbe; xbf; xc0; xc1; xc2; xc3; xc4; xc5; xc6; xc7; xc8; xc9; xca; xcb; xcc; xcd; xce; xcf; xd0; xd1; xd2; xd3; xd4; xd5; xd6; xd7; xd8; xd9; xda; xdb; xdc; xdd; xde; xdf; xe0; xe1; xe2; xe3; xe4; xe5; xe6; xe7; xe8; xe9; xea; xeb; xec; xed; xee; xef; xf0; xf1; xf2; xf3; xf4; xf5; xf6; xf7; xf8; xf9; xfa; xfb; xfc; xfd; xfe; xff];
   [x00; x02; x04; x06; x08; x0a; x0c; x0e; x10; x12; x14; x16; x18; x1a; x1c; x1e; x20; x22; x24; x26; x28; x2a; x2c; x2e; x30; x32; x34; x36; x38; x3a; x3c; x3e; x40; x42; x44; x46; x48; x4a; x4c; x4e; x50; x52; x54; x56; x58; x5a; x5c; x5e; x60; x62; x64; x66; x68; x6a; x6c; x6e; x70; x72; x74; x76; x78; x7a; x7c; x7e; x80; x82; x84; x86; x88; x8a; x8c; x8e; x90; x92; x94; x96; x98; x9a; x9c; x9e; xa0; xa2; xa4; xa6; xa8; xaa; xac; xae; xb0; xb2; xb4; xb6; xb8; xba; xbc; xbe; xc0; xc2; xc4; xc6; xc8; xca; xcc; xce; xd0; xd2; xd4; xd6; xd8; xda; xdc; xde; xe0; xe2; xe4; xe6; xe8; xea; xec; xee; xf0; xf2; xf4; xf6; xf8; xfa; xfc; xfe; x1d; x1f; x19; x1b; x15; x17; x11; x13; x0d; x0f; x09; x0b; x05; x07; x01; x03; x3d; x3f; x39; x3b; x35; x37; x31; x33; x2d; x2f; x29; x2b; x25; x27; x21; x23; x5d; x5f; x59; x5b; x55; x57; x51; x53; x4d; x4f; x49; x4b; x45; x47; x41; x43; x7d; x7f; x79; x7b; x75; x77; x71; x73; x6d; x6f; x69; x6b; x65; x67; x61; x63; x9d; x9f; x99; x9b; x95; x97; x91; x93; x8d; x8f; x89; x8b; x85; x87; x81; x83; xbd; xbf; xb9; xbb; xb5; xb7; xb1; xb3; xad; xaf; xa9; xab; xa5; xa7; xa1; xa3; xdd; xdf; xd9; xdb; xd5; xd7; xd1; xd3; xcd; xcf; xc9; xcb; xc5; xc7; xc1; xc3; xfd; xff; xf9; xfb; xf5; xf7; xf1; xf3; xed; xef; xe9; xeb; xe5; xe7; xe1; xe3];
   [x00; x03; x06; x05; x0c; x0f; x0a; x09; x18; x1b; x1e; x1d; x14; x17; x12; x11; x30; x33; x36; x35; x3c; x3f; x3a; x39; x28; x2b; x2e; x2d; x24; x27; x22; x21; x60; x63; x66; x65; x6c; x6f; x6a; x69; x78; x7b; x7e; x7d; x74; x77; x72; x71; x50; x53; x56; x55; x5c; x5f; x5a; x59; x48; x4b; x4e; x4d; x44; x47; x42; x41; xc0; xc3; xc6; xc5; xcc; xcf; xca; xc9; xd8; xdb; xde; xdd; xd4; xd7; xd2; xd1; xf0; xf3; xf6; xf5; xfc; xff; xfa; xf9; xe8; xeb; xee; xed; xe4; xe7; xe2; xe1; xa0; xa3; xa6; xa5; xac; xaf; xaa; xa9; xb8; xbb; xbe; xbd; xb4; xb7; xb2; xb1; x90; x93; x96; x95; x9c; x9f; x9a; x99; x88; x8b; x8e; x8d; x84; x87; x82; x81; x9d; x9e; x9b; x98; x91; x92; x97; x94; x85; x86; x83; x80; x89; x8a; x8f; x8c; xad; xae; xab; xa8; xa1; xa2; xa7; xa4; xb5; xb6; xb3; xb0; xb9; xba; xbf; xbc; xfd; xfe; xfb; xf8; xf1; xf2; xf7; xf4; xe5; xe6; xe3; xe0; xe9; xea; xef; xec; xcd; xce; xcb; xc8; xc1; xc2; xc7; xc4; xd5; xd6; xd3; xd0; xd9; xda; xdf; xdc; x5d; x5e; x5b; x58; x51; x52; x57; x54; x45; x46; x43; x40; x49; x4a; x4f; x4c; x6d; x6e; x6b; x68; x61; x62; x67; x64; x75; x76; x73; x70; x79; x7a; x7f; x7c; x3d; x3e; x3b; x38; x31; x32; x37; x34; x25; x26; x23; x20; x29; x2a; x2f; x2c; x0d; x0e; x0b; x08; x01; x02; x07; x04; x15; x16; x13; x10; x19; x1a; x1f; x1c];
   [x00; x04; x08; x0c; x10; x14; x18; x1c; x20; x24; x28; x2c; x30; x34; x38; x3c; x40; x44; x48; x4c; x50; x54; x58; x5c; x60; x64; x68; x6c; x70; x74; x78; x7c; x80; x84; x88; x8c; x90; x94; x98; x9c; xa0; xa4; xa8; xac; xb0; xb4; xb8; xbc; xc0; xc4; xc8; xcc; xd0; xd4; xd8; xdc; xe0; xe4; xe8; xec; xf0; xf4; xf8; xfc; x1d; x19; x15; x11; x0d; x09; x05; x01; x3d; x39; x35; x31; x2d; x29; x25; x21; x5d; x59; x55; x51; x4d; x49; x45; x41; x7d; x79; x75; x71; x6d; x69; x65; x61; x9d; x99; x95; x91; x8d; x89; x85; x81; xbd; xb9; xb5; xb1; xad; xa9; xa5; xa1; xdd; xd9; xd5; xd1; xcd; xc9; xc5; xc1; xfd; xf9; xf5; xf1; xed; xe9; xe5; xe1; x3a; x3e; x32; x36; x2a; x2e; x22; x26; x1a; x1e; x12; x16; x0a; x0e; x02; x06; x7a; x7e; x72; x76; x6a; x6e; x62; x66; x5a; x5e; x52; x56; x4a; x4e; x42; x46; xba; xbe; xb2; xb6; xaa; xae; xa2; xa6; x9a; x9e; x92; x96; x8a; x8e; x82; x86; xfa; xfe; xf2; xf6; xea; xee; xe2; xe6; xda; xde; xd2; xd6; xca; xce; xc2; xc6; x27; x23; x2f; x2b; x37; x33; x3f; x3b; x07; x03; x0f; x0b; x17; x13; x1f; x1b; x67; x63; x6f; x6b; x77; x73; x7f; x7b; x47; x43; x4f; x4b; x57; x53; x5f; x5b; xa7; xa3; xaf; xab; xb7; xb3; xbf; xbb; x87; x83; x8f; x8b; x97; x93; x9f; x9b; xe7; xe3; xef; xeb; xf7; xf3; xff; xfb; xc7; xc3; xcf; xcb; xd7; xd3; xdf; xdb];
   [x00; x05; x0a; x0f; x14; x11; x1e; x1b; x28; x2d; x22; x27; x3c; x39; x36; x33; x50; x55; x5a; x5f; x44; x41; x4e; x4b; x78; x7d; x72; x77; x6c; x69; x66; x63; xa0; xa5; xaa; xaf; xb4; xb1; xbe; xbb; x88; x8d; x82; x87; x9c; x99; x96; x93; xf0; xf5; xfa; xff; xe4; xe1; xee; xeb; xd8; xdd; xd2; xd7; xcc; xc9; xc6; xc3; x5d; x58; x57; x52; x49; x4c; x43; x46; x75; x70; x7f; x7a; x61; x64; x6b; x6e; x0d; x08; x07; x02; x19; x1c; x13; x16; x25; x20; x2f; x2a; x31; x34; x3b; x3e; xfd; xf8; xf7; xf2; xe9; xec; xe3; xe6; xd5; xd0; xdf; xda; xc1; xc4; xcb; xce; xad; xa8; xa7; xa2; xb9; xbc; xb3; xb6; x85; x80; x8f; x8a; x91; x94; x9b; x9e; xba; xbf; xb0; xb5; xae; xab; xa4; xa1; x92; x97; x98; x9d; x86; x83; x8c; x89; xea; xef; xe0; xe5; xfe; xfb; xf4; xf1; xc2; xc7; xc8; xcd; xd6; xd3; xdc; xd9; x1a; x1f; x10; x15; x0e; x0b; x04; x01; x32; x37; x38; x3d; x26; x23; x2c; x29; x4a; x4f; x40; x45; x5e; x5b; x54; x51; x62; x67; x68; x6d; x76; x73; x7c; x79; xe7; xe2; xed; xe8; xf3; xf6; xf9; xfc; xcf; xca; xc5; xc0; xdb; xde; xd1; xd4; xb7; xb2; xbd; xb8; xa3; xa6; xa9; xac; x9f; x9a; x95; x90; x8b; x8e; x81; x84; x47; x42; x4d; x48; x53; x56; x59; x5c; x6f; x6a; x65; x60; x7b; x7e; x71; x74; x17; x12; x1d; x18; x03; x06; x09; x0c; x3f; x3a; x35; x30; x2b; x2e; x21; x24];
   [x00; x06; x0c; x0a; x18; x1e; x14; x12; x30; x36; x3c; x3a; x28; x2e; x24; x22; x60; x66; x6c; x6a; x78; x7e; x74; x72; x50; x56; x5c; x5a; x48; x4e; x44; x42; xc0; xc6; xcc; xca; xd8; xde; xd4; xd2; xf0; xf6; xfc; xfa; xe8; xee; xe4; xe2; xa0; xa6; xac; xaa; xb8; xbe; xb4; xb2; x90; x96; x9c; x9a; x88; x8e; x84; x82; x9d; x9b; x91; x97; x85; x83; x89; x8f; xad; xab; xa1; xa7; xb5; xb3; xb9; xbf; xfd; xfb; xf1; xf7; xe5; xe3; xe9; xef; xcd; xcb; xc1; xc7; xd5; xd3; xd9; xdf; x5d; x5b; x51; x57; x45; x43; x49; x4f; x6d; x6b; x61; x67; x75; x73; x79; x7f; x3d; x3b; x31; x37; x25; x23; x29; x2f; x0d; x0b; x01; x07; x15; x13; x19; x1f; x27; x21; x2b; x2d; x3f; x39; x33; x35; x17; x11; x1b; x1d; x0f; x09; x03; x05; x47; x41; x4b; x4d; x5f; x59; x53; x55; x77; x71; x7b; x7d; x6f; x69; x63; x65; xe7; xe1; xeb; xed; xff; xf9; xf3; xf5; xd7; xd1; xdb; xdd; xcf; xc9; xc3; xc5; x87; x81; x8b; x8d; x9f; x99; x93; x95; xb7; xb1; xbb; xbd; xaf; xa9; xa3; xa5; xba; xbc; xb6; xb0; xa2; xa4; xae; xa8; x8a; x8c; x86; x80; x92; x94; x9e; x98; xda; xdc; xd6; xd0; xc2; xc4; xce; xc8; xea; xec; xe6; xe0; xf2; xf4; xfe; xf8; x7a; x7c; x76; x70; x62; x64; x6e; x68; x4a; x4c; x46; x40; x52; x54; x5e; x58; x1a; x1c; x16; x10; x02; x04; x0e; x08; x2a; x2c; x26; x20; x32; x34; x3e; x38];
   [x00; x07; x0e; x09; x1c; x1b; x12; x15; x38; x3f; x36; x31; x24; x23; x2a; x2d; x70; x77; x7e; x79; x6c; x6b; x62; x65; x48; x4f; x46; x41; x54; x53; x5a; x5d; xe0; xe7; xee; xe9; xfc; xfb; xf2; xf5; xd8; xdf; xd6; xd1; xc4; xc3; xca; xcd; x90; x97; x9e; x99; x8c; x8b; x82; x85; xa8; xaf; xa6; xa1; xb4; xb3; xba; xbd; xdd; xda; xd3; xd4; xc1; xc6; xcf; xc8; xe5; xe2; xeb; xec; xf9; xfe; xf7; xf0; xad; xaa; xa3; xa4; xb1; xb6; xbf; xb8; x95; x92; x9b; x9c; x89; x8e; x87; x80; x3d; x3a; x33; x34; x21; x26; x2f; x28; x05; x02; x0b; x0c; x19; x1e; x17; x10; x4d; x4a; x43; x44; x51; x56; x5f; x58; x75; x72; x7b; x7c; x69; x6e; x67; x60; xa7; xa0; xa9; xae; xbb; xbc; xb5; xb2; x9f; x98; x91; x96; x83; x84; x8d; x8a; xd7; xd0; xd9; xde; xcb; xcc; xc5; xc2; xef; xe8; xe1; xe6; xf3; xf4; xfd; xfa; x47; x40; x49; x4e; x5b; x5c; x55; x52; x7f; x78; x71; x76; x63; x64; x6d; x6a; x37; x30; x39; x3e; x2b; x2c; x25; x22; x0f; x08; x01; x06; x13; x14; x1d; x1a; x7a; x7d; x74; x73; x66; x61; x68; x6f; x42; x45; x4c; x4b; x5e; x59; x50; x57; x0a; x0d; x04; x03; x16; x11; x18; x1f; x32; x35; x3c; x3b; x2e; x29; x20; x27; x9a; x9d; x94; x93; x86; x81; x88; x8f; xa2; xa5; xac; xab; xbe; xb9; xb0; xb7; xea; xed; xe4; xe3; xf6; xf1; xf8; xff; xd2; xd5; xdc; xdb; xce; xc9; xc0; xc7];
   [x00; x08; x10; x18; x20; x28; x30; x38; x40; x48; x50; x58; x60; x68; x70; x78; x80; x88; x90; x98; xa0; xa8; xb0; xb8; xc0; xc8; xd0; xd8; xe0; xe8; xf0; xf8; x1d; x15; x0d; x05; x3d; x35; x2d; x25; x5d; x55; x4d; x45; x7d; x75; x6d; x65; x9d; x95; x8d; x85; xbd; xb5; xad; xa5; xdd; xd5; xcd; xc5; xfd; xf5; xed; xe5; x3a; x32; x2a; x22; x1a; x12; x0a; x02; x7a; x72; x6a; x62; x5a; x52; x4a; x42; xba; xb2; xaa; xa2; x9a; x92; x8a; x82; xfa; xf2; xea; xe2; xda; xd2; xca; xc2; x27; x2f; x37; x3f; x07; x0f; x17; x1f; x67; x6f; x77; x7f; x47; x4f; x57; x5f; xa7; xaf; xb7; xbf; x87; x8f; x97; x9f; xe7; xef; xf7; xff; xc7; xcf; xd7; xdf; x74; x7c; x64; x6c; x54; x5c; x44; x4c; x34; x3c; x24; x2c; x14; x1c; x04; x0c; xf4; xfc; xe4; xec; xd4; xdc; xc4; xcc; xb4; xbc; xa4; xac; x94; x9c; x84; x8c; x69; x61; x79; x71; x49; x41; x59; x51; x29; x21; x39; x31; x09; x01; x19; x11; xe9; xe1; xf9; xf1; xc9; xc1; xd9; xd1; xa9; xa1; xb9; xb1; x89; x81; x99; x91; x4e; x46; x5e; x56; x6e; x66; x7e; x76; x0e; x06; x1e; x16; x2e; x26; x3e; x36; xce; xc6; xde; xd6; xee; xe6; xfe; xf6; x8e; x86; x9e; x96; xae; xa6; xbe; xb6; x53; x5b; x43; x4b; x73; x7b; x63; x6b; x13; x1b; x03; x0b; x33; x3b; x23; x2b; xd3; xdb; xc3; xcb; xf3; xfb; xe3; xeb; x93; x9b; x83; x8b; xb3; xbb; xa3; xab];
   [x00; x09; x12; x1b; x24; x2d; x36; x3f; x48; x41; x5a; x53; x6c; x65; x7e; x77; x90; x99; x82; x8b; xb4; xbd; xa6; xaf; xd8; xd1; xca; xc3; xfc; xf5; xee; xe7; x3d; x34; x2f; x26; x19; x10; x0b; x02; x75; x7c; x67; x6e; x51; x58; x43; x4a; xad; xa4; xbf; xb6; x89; x80; x9b; x92; xe5; xec; xf7; xfe; xc1; xc8; xd3; xda; x7a; x73; x68; x61; x5e; x57; x4c; x45; x32; x3b; x20; x29; x16; x1f; x04; x0d; xea; xe3; xf8; xf1; xce; xc7; xdc; xd5; xa2; xab; xb0; xb9; x86; x8f; x94; x9d; x47; x4e; x55; x5c; x63; x6a; x71; x78; x0f; x06; x1d; x14; x2b; x22; x39; x30; xd7; xde; xc5; xcc; xf3; xfa; xe1; xe8; x9f; x96; x8d; x84; xbb; xb2; xa9; xa0; xf4; xfd; xe6; xef; xd0; xd9; xc2; xcb; xbc; xb5; xae; xa7; x98; x91; x8a; x83; x64; x6d; x76; x7f; x40; x49; x52; x5b; x2c; x25; x3e; x37; x08; x01; x1a; x13; xc9; xc0; xdb; xd2; xed; xe4; xff; xf6; x81; x88; x93; x9a; xa5; xac; xb7; xbe; x59; x50; x4b; x42; x7d; x74; x6f; x66; x11; x18; x03; x0a; x35; x3c; x27; x2e; x8e; x87; x9c; x95; xaa; xa3; xb8; xb1; xc6; xcf; xd4; xdd; xe2; xeb; xf0; xf9; x1e; x17; x0c; x05; x3a; x33; x28; x21; x56; x5f; x44; x4d; x72; x7b; x60; x69; xb3; xba; xa1; xa8; x97; x9e; x85; x8c; xfb; xf2; xe9; xe0; xdf; xd6; xcd; xc4; x23; x2a; x31; x38; x07; x0e; x15; x1c; x6b; x62; x79; x70; x4f; x46; x5d; x54];
   [x00; x0a; x14; x1e; x28; x22; x3c; x36; x50; x5a; x44; x4e; x78; x72; x6c; x66; xa0; xaa; xb4; xbe; x88; x82; x9c; x96; xf0; xfa; xe4; xee; xd8; xd2; xcc; xc6; x5d; x57; x49; x43; x75; x7f; x61; x6b; x0d; x07; x19; x13; x25; x2f; x31; x3b; xfd; xf7; xe9; xe3; xd5; xdf; xc1; xcb; xad; xa7; xb9; xb3; x85; x8f; x91; x9b; xba; xb0; xae; xa4; x92; x98; x86; x8c; xea; xe0; xfe; xf4; xc2; xc8; xd6; xdc; x1a; x10; x0e; x04; x32; x38; x26; x2c; x4a; x40; x5e; x54; x62; x68; x76; x7c; xe7; xed; xf3; xf9; xcf; xc5; xdb; xd1; xb7; xbd; xa3; xa9; x9f; x95; x8b; x81; x47; x4d; x53; x59; x6f; x65; x7b; x71; x17; x1d; x03; x09; x3f; x35; x2b; x21; x69; x63; x7d; x77; x41; x4b; x55; x5f; x39; x33; x2d; x27; x11; x1b; x05; x0f; xc9; xc3; xdd; xd7; xe1; xeb; xf5; xff; x99; x93; x8d; x87; xb1; xbb; xa5; xaf; x34; x3e; x20; x2a; x1c; x16; x08; x02; x64; x6e; x70; x7a; x4c; x46; x58; x52; x94; x9e; x80; x8a; xbc; xb6; xa8; xa2; xc4; xce; xd0; xda; xec; xe6; xf8; xf2; xd3; xd9; xc7; xcd; xfb; xf1; xef; xe5; x83; x89; x97; x9d; xab; xa1; xbf; xb5; x73; x79; x67; x6d; x5b; x51; x4f; x45; x23; x29; x37; x3d; x0b; x01; x1f; x15; x8e; x84; x9a; x90; xa6; xac; xb2; xb8; xde; xd4; xca; xc0; xf6; xfc; xe2; xe8; x2e; x24; x3a; x30; x06; x0c; x12; x18; x7e; x74; x6a; x60; x56; x5c; x42; x48];
   [x00; x0b; x16; x1d; x2c; x27; x3a; x31; x58; x53; x4e; x45; x74; x7f; x62; x69; xb0; xbb; xa6; xad; x9c; x97; x8a; x81; xe8; xe3; xfe; xf5; xc4; xcf; xd2; xd9; x7d; x76; x6b; x60; x51; x5a; x47; x4c; x25; x2e; x33; x38; x09; x02; x1f; x14; xcd; xc6; xdb; xd0; xe1; xea; xf7; xfc; x95; x9e; x83; x88; xb9; xb2; xaf; xa4; xfa; xf1; xec; xe7; xd6; xdd; xc0; xcb; xa2; xa9; xb4; xbf; x8e; x85; x98; x93; x4a; x41; x5c; x57; x66; x6d; x70; x7b; x12; x19; x04; x0f; x3e; x35; x28; x23; x87; x8c; x91; x9a; xab; xa0; xbd; xb6; xdf; xd4; xc9; xc2; xf3; xf8; xe5; xee; x37; x3c; x21; x2a; x1b; x10; x0d; x06; x6f; x64; x79; x72; x43; x48; x55; x5e; xe9; xe2; xff; xf4; xc5; xce; xd3; xd8; xb1; xba; xa7; xac; x9d; x96; x8b; x80; x59; x52; x4f; x44; x75; x7e; x63; x68; x01; x0a; x17; x1c; x2d; x26; x3b; x30; x94; x9f; x82; x89; xb8; xb3; xae; xa5; xcc; xc7; xda; xd1; xe0; xeb; xf6; xfd; x24; x2f; x32; x39; x08; x03; x1e; x15; x7c; x77; x6a; x61; x50; x5b; x46; x4d; x13; x18; x05; x0e; x3f; x34; x29; x22; x4b; x40; x5d; x56; x67; x6c; x71; x7a; xa3; xa8; xb5; xbe; x8f; x84; x99; x92; xfb; xf0; xed; xe6; xd7; xdc; xc1; xca; x6e; x65; x78; x73; x42; x49; x54; x5f; x36; x3d; x20; x2b; x1a; x11; x0c; x07; xde; xd5; xc8; xc3; xf2; xf9; xe4; xef; x86; x8d; x90; x9b; xaa; xa1; xbc; xb7];
   [x00; x0c; x18; x14; x30; x3c; x28; x24; x60; x6c; x78; x74; x50; x5c; x48; x44; xc0; xcc; xd8; xd4; xf0; xfc; xe8; xe4; xa0; xac; xb8; xb4; x90; x9c; x88; x84; x9d; x91; x85; x89; xad; xa1; xb5; xb9; xfd; xf1; xe5; xe9; xcd; xc1; xd5; xd9; x5d; x51; x45; x49; x6d; x61; x75; x79; x3d; x31; x25; x29; x0d; x01; x15; x19; x27; x2b; x3f; x33; x17; x1b; x0f; x03; x47; x4b; x5f; x53; x77; x7b; x6f; x63; xe7; xeb; xff; xf3; xd7; xdb; xcf; xc3; x87; x8b; x9f; x93; xb7; xbb; xaf; xa3; xba; xb6; xa2; xae; x8a; x86; x92; x9e; xda; xd6; xc2; xce; xea; xe6; xf2; xfe; x7a; x76; x62; x6e; x4a; x46; x52; x5e; x1a; x16; x02; x0e; x2a; x26; x32; x3e; x4e; x42; x56; x5a; x7e; x72; x66; x6a; x2e; x22; x36; x3a; x1e; x12; x06; x0a; x8e; x82; x96; x9a; xbe; xb2; xa6; xaa; xee; xe2; xf6; xfa; xde; xd2; xc6; xca; xd3; xdf; xcb; xc7; xe3; xef; xfb; xf7; xb3; xbf; xab; xa7; x83; x8f; x9b; x97; x13; x1f; x0b; x07; x23; x2f; x3b; x37; x73; x7f; x6b; x67; x43; x4f; x5b; x57; x69; x65; x71; x7d; x59; x55; x41; x4d; x09; x05; x11; x1d; x39; x35; x21; x2d; xa9; xa5; xb1; xbd; x99; x95; x81; x8d; xc9; xc5; xd1; xdd; xf9; xf5; xe1; xed; xf4; xf8; xec; xe0; xc4; xc8; xdc; xd0; x94; x98; x8c; x80; xa4; xa8; xbc; xb0; x34; x38; x2c; x20; x04; x08; x1c; x10; x54; x58; x4c; x40; x64; x68; x7c; x70];
   [x00; x0d; x1a; x17; x34; x39; x2e; x23; x68; x65; x72; x7f; x5c; x51; x46; x4b; xd0; xdd; xca; xc7; xe4; xe9; xfe; xf3; xb8; xb5; xa2; xaf; x8c; x81; x96; x9b; xbd; xb0; xa7; xaa; x89; x84; x93; x9e; xd5; xd8; xcf; xc2; xe1; xec; xfb; xf6; x6d; x60; x77; x7a; x59; x54; x43; x4e; x05; x08; x1f; x12; x31; x3c; x2b; x26; x67; x6a; x7d; x70; x53; x5e; x49; x44; x0f; x02; x15; x18; x3b; x36; x21; x2c; xb7; xba; xad; xa0; x83; x8e; x99; x94; xdf; xd2; xc5; xc8; xeb; xe6; xf1; xfc; xda; xd7; xc0; xcd; xee; xe3; xf4; xf9; xb2; xbf; xa8; xa5; x86; x8b; x9c; x91; x0a; x07; x10; x1d; x3e; x33; x24; x29; x62; x6f; x78; x75; x56; x5b; x4c; x41; xce; xc3; xd4; xd9; xfa; xf7; xe0; xed; xa6; xab; xbc; xb1; x92; x9f; x88; x85; x1e; x13; x04; x09; x2a; x27; x30; x3d; x76; x7b; x6c; x61; x42; x4f; x58; x55; x73; x7e; x69; x64; x47; x4a; x5d; x50; x1b; x16; x01; x0c; x2f; x22; x35; x38; xa3; xae; xb9; xb4; x97; x9a; x8d; x80; xcb; xc6; xd1; xdc; xff; xf2; xe5; xe8; xa9; xa4; xb3; xbe; x9d; x90; x87; x8a; xc1; xcc; xdb; xd6; xf5; xf8; xef; xe2; x79; x74; x63; x6e; x4d; x40; x57; x5a; x11; x1c; x0b; x06; x25; x28; x3f; x32; x14; x19; x0e; x03; x20; x2d; x3a; x37; x7c; x71; x66; x6b; x48; x45; x52; x5f; xc4; xc9; xde; xd3; xf0; xfd; xea; xe7; xac; xa1; xb6; xbb; x98; x95; x82; x8f];
   [x00; x0e; x1c; x12; x38; x36; x24; x2a; x70; x7e; x6c; x62; x48; x46; x54; x5a; xe0; xee; xfc; xf2; xd8; xd6; xc4; xca; x90; x9e; x8c; x82; xa8; xa6; xb4; xba; xdd; xd3; xc1; xcf; xe5; xeb; xf9; xf7; xad; xa3; xb1; xbf; x95; x9b; x89; x87; x3d; x33; x21; x2f; x05; x0b; x19; x17; x4d; x43; x51; x5f; x75; x7b; x69; x67; xa7; xa9; xbb; xb5; x9f; x91; x83; x8d; xd7; xd9; xcb; xc5; xef; xe1; xf3; xfd; x47; x49; x5b; x55; x7f; x71; x63; x6d; x37; x39; x2b; x25; x0f; x01; x13; x1d; x7a; x74; x66; x68; x42; x4c; x5e; x50; x0a; x04; x16; x18; x32; x3c; x2e; x20; x9a; x94; x86; x88; xa2; xac; xbe; xb0; xea; xe4; xf6; xf8; xd2; xdc; xce; xc0; x53; x5d; x4f; x41; x6b; x65; x77; x79; x23; x2d; x3f; x31; x1b; x15; x07; x09; xb3; xbd; xaf; xa1; x8b; x85; x97; x99; xc3; xcd; xdf; xd1; xfb; xf5; xe7; xe9; x8e; x80; x92; x9c; xb6; xb8; xaa; xa4; xfe; xf0; xe2; xec; xc6; xc8; xda; xd4; x6e; x60; x72; x7c; x56; x58; x4a; x44; x1e; x10; x02; x0c; x26; x28; x3a; x34; xf4; xfa; xe8; xe6; xcc; xc2; xd0; xde; x84; x8a; x98; x96; xbc; xb2; xa0; xae; x14; x1a; x08; x06; x2c; x22; x30; x3e; x64; x6a; x78; x76; x5c; x52; x40; x4e; x29; x27; x35; x3b; x11; x1f; x0d; x03; x59; x57; x45; x4b; x61; x6f; x7d; x73; xc9; xc7; xd5; xdb; xf1; xff; xed; xe3; xb9; xb7; xa5; xab; x81; x8f; x9d; x93];
   [x00; x0f; x1e; x11; x3c; x33; x22; x2d; x78; x77; x66; x69; x44; x4b; x5a; x55; xf0; xff; xee; xe1; xcc; xc3; xd2; xdd; x88; x87; x96; x99; xb4; xbb; xaa; xa5; xfd; xf2; xe3; xec; xc1; xce; xdf; xd0; x85; x8a; x9b; x94; xb9; xb6; xa7; xa8; x0d; x02; x13; x1c; x31; x3e; x2f; x20; x75; x7a; x6b; x64; x49; x46; x57; x58; xe7; xe8; xf9; xf6; xdb; xd4; xc5; xca; x9f; x90; x81; x8e; xa3; xac; xbd; xb2; x17; x18; x09; x06; x2b; x24; x35; x3a; x6f; x60; x71; x7e; x53; x5c; x4d; x42; x1a; x15; x04; x0b; x26; x29; x38; x37; x62; x6d; x7c; x73; x5e; x51; x40; x4f; xea; xe5; xf4; xfb; xd6; xd9; xc8; xc7; x92; x9d; x8c; x83; xae; xa1; xb0; xbf; xd3; xdc; xcd; xc2; xef; xe0; xf1; xfe; xab; xa4; xb5; xba; x97; x98; x89; x86; x23; x2c; x3d; x32; x1f; x10; x01; x0e; x5b; x54; x45; x4a; x67; x68; x79; x76; x2e; x21; x30; x3f; x12; x1d; x0c; x03; x56; x59; x48; x47; x6a; x65; x74; x7b; xde; xd1; xc0; xcf; xe2; xed; xfc; xf3; xa6; xa9; xb8; xb7; x9a; x95; x84; x8b; x34; x3b; x2a; x25; x08; x07; x16; x19; x4c; x43; x52; x5d; x70; x7f; x6e; x61; xc4; xcb; xda; xd5; xf8; xf7; xe6; xe9; xbc; xb3; xa2; xad; x80; x8f; x9e; x91; xc9; xc6; xd7; xd8; xf5; xfa; xeb; xe4; xb1; xbe; xaf; xa0; x8d; x82; x93; x9c; x39; x36; x27; x28; x05; x0a; x1b; x14; x41; x4e; x5f; x50; x7d; x72; x63; x6c];
   [x00; x10; x20; x30; x40; x50; x60; x70; x80; x90; xa0; xb0; xc0; xd0; xe0; xf0; x1d; x0d; x3d; x2d; x5d; x4d; x7d; x6d; x9d; x8d; xbd; xad; xdd; xcd; xfd; xed; x3a; x2a; x1a; x0a; x7a; x6a; x5a; x4a; xba; xaa; x9a; x8a; xfa; xea; xda; xca; x27; x37; x07; x17; x67; x77; x47; x57; xa7; xb7; x87; x97; xe7; xf7; xc7; xd7; x74; x64; x54; x44; x34; x24; x14; x04; xf4; xe4; xd4; xc4; xb4; xa4; x94; x84; x69; x79; x49; x59; x29; x39; x09; x19; xe9; xf9; xc9; xd9; xa9; xb9; x89; x99; x4e; x5e; x6e; x7e; x0e; x1e; x2e; x3e; xce; xde; xee; xfe; x8e; x9e; xae; xbe; x53; x43; x73; x63; x13; x03; x33; x23; xd3; xc3; xf3; xe3; x93; x83; xb3; xa3; xe8; xf8; xc8; xd8; xa8; xb8; x88; x98; x68; x78; x48; x58; x28; x38; x08; x18; xf5; xe5; xd5; xc5; xb5; xa5; x95; x85; x75; x65; x55; x45; x35; x25; x15; x05; xd2; xc2; xf2; xe2; x92; x82; xb2; xa2; x52; x42; x72; x62; x12; x02; x32; x22; xcf; xdf; xef; xff; x8f; x9f; xaf; xbf; x4f; x5f; x6f; x7f; x0f; x1f; x2f; x3f; x9c; x8c; xbc; xac; xdc; xcc; xfc; xec; x1c; x0c; x3c; x2c; x5c; x4c; x7c; x6c; x81; x91; xa1; xb1; xc1; xd1; xe1; xf1; x01; x11; x21; x31; x41; x51; x61; x71; xa6; xb6; x86; x96; xe6; xf6; xc6; xd6; x26; x36; x06; x16; x66; x76; x46; x56; xbb; xab; x9b; x8b; xfb; xeb; xdb; xcb; x3b; x2b; x1b; x0b; x7b; x6b; x5b; x4b];
   [x00; x11; x22; x33; x44; x55; x66; x77; x88; x99; xaa; xbb; xcc; xdd; xee; xff; x0d; x1c; x2f; x3e; x49; x58; x6b; x7a; x85; x94; xa7; xb6; xc1; xd0; xe3; xf2; x1a; x0b; x38; x29; x5e; x4f; x7c; x6d; x92; x83; xb0; xa1; xd6; xc7; xf4; xe5; x17; x06; x35; x24; x53; x42; x71; x60; x9f; x8e; xbd; xac; xdb; xca; xf9; xe8; x34; x25; x16; x07; x70; x61; x52; x43; xbc; xad; x9e; x8f; xf8; xe9; xda; xcb; x39; x28; x1b; x0a; x7d; x6c; x5f; x4e; xb1; xa0; x93; x82; xf5; xe4; xd7; xc6; x2e; x3f; x0c; x1d; x6a; x7b; x48; x59; xa6; xb7; x84; x95; xe2; xf3; xc0; xd1; x23; x32; x01; x10; x67; x76; x45; x54; xab; xba; x89; x98; xef; xfe; xcd; xdc; x68; x79; x4a; x5b; x2c; x3d; x0e; x1f; xe0; xf1; xc2; xd3; xa4; xb5; x86; x97; x65; x74; x47; x56; x21; x30; x03; x12; xed; xfc; xcf; xde; xa9; xb8; x8b; x9a; x72; x63; x50; x41; x36; x27; x14; x05; xfa; xeb; xd8; xc9; xbe; xaf; x9c; x8d; x7f; x6e; x5d; x4c; x3b; x2a; x19; x08; xf7; xe6; xd5; xc4; xb3; xa2; x91; x80; x5c; x4d; x7e; x6f; x18; x09; x3a; x2b; xd4; xc5; xf6; xe7; x90; x81; xb2; xa3; x51; x40; x73; x62; x15; x04; x37; x26; xd9; xc8; xfb; xea; x9d; x8c; xbf; xae; x46; x57; x64; x75; x02; x13; x20; x31; xce; xdf; xec; xfd; x8a; x9b; xa8; xb9; x4b; x5a; x69; x78; x0f; x1e; x2d; x3c; xc3; xd2; xe1; xf0; x87; x96; xa5; xb4];
   [x00; x12; x24; x36; x48; x5a; x6c; x7e; x90; x82; xb4; xa6; xd8; xca; xfc; xee; x3d; x2f; x19; x0b; x75; x67; x51; x43; xad; xbf; x89; x9b; xe5; xf7; xc1; xd3; x7a; x68; x5e; x4c; x32; x20; x16; x04; xea; xf8; xce; xdc; xa2; xb0; x86; x94; x47; x55; x63; x71; x0f; x1d; x2b; x39; xd7; xc5; xf3; xe1; x9f; x8d; xbb; xa9; xf4; xe6; xd0; xc2; xbc; xae; x98; x8a; x64; x76; x40; x52; x2c; x3e; x08; x1a; xc9; xdb; xed; xff; x81; x93; xa5; xb7; x59; x4b; x7d; x6f; x11; x03; x35; x27; x8e; x9c; xaa; xb8; xc6; xd4; xe2; xf0; x1e; x0c; x3a; x28; x56; x44; x72; x60; xb3; xa1; x97; x85; xfb; xe9; xdf; xcd; x23; x31; x07; x15; x6b; x79; x4f; x5d; xf5; xe7; xd1; xc3; xbd; xaf; x99; x8b; x65; x77; x41; x53; x2d; x3f; x09; x1b; xc8; xda; xec; xfe; x80; x92; xa4; xb6; x58; x4a; x7c; x6e; x10; x02; x34; x26; x8f; x9d; xab; xb9; xc7; xd5; xe3; xf1; x1f; x0d; x3b; x29; x57; x45; x73; x61; xb2; xa0; x96; x84; xfa; xe8; xde; xcc; x22; x30; x06; x14; x6a; x78; x4e; x5c; x01; x13; x25; x37; x49; x5b; x6d; x7f; x91; x83; xb5; xa7; xd9; xcb; xfd; xef; x3c; x2e; x18; x0a; x74; x66; x50; x42; xac; xbe; x88; x9a; xe4; xf6; xc0; xd2; x7b; x69; x5f; x4d; x33; x21; x17; x05; xeb; xf9; xcf; xdd; xa3; xb1; x87; x95; x46; x54; x62; x70; x0e; x1c; x2a; x38; xd6; xc4; xf2; xe0; x9e; x8c; xba; xa8];
   [x00; x13; x26; x35; x4c; x5f; x6a; x79; x98; x8b; xbe; xad; xd4; xc7; xf2; xe1; x2d; x3e; x0b; x18; x61; x72; x47; x54; xb5; xa6; x93; x80; xf9; xea; xdf; xcc; x5a; x49; x7c; x6f; x16; x05; x30; x23; xc2; xd1; xe4; xf7; x8e; x9d; xa8; xbb; x77; x64; x51; x42; x3b; x28; x1d; x0e; xef; xfc; xc9; xda; xa3; xb0; x85; x96; xb4; xa7; x92; x81; xf8; xeb; xde; xcd; x2c; x3f; x0a; x19; x60; x73; x46; x55; x99; x8a; xbf; xac; xd5; xc6; xf3; xe0; x01; x12; x27; x34; x4d; x5e; x6b; x78; xee; xfd; xc8; xdb; xa2; xb1; x84; x97; x76; x65; x50; x43; x3a; x29; x1c; x0f; xc3; xd0; xe5; xf6; x8f; x9c; xa9; xba; x5b; x48; x7d; x6e; x17; x04; x31; x22; x75; x66; x53; x40; x39; x2a; x1f; x0c; xed; xfe; xcb; xd8; xa1; xb2; x87; x94; x58; x4b; x7e; x6d; x14; x07; x32; x21; xc0; xd3; xe6; xf5; x8c; x9f; xaa; xb9; x2f; x3c; x09; x1a; x63; x70; x45; x56; xb7; xa4; x91; x82; xfb; xe8; xdd; xce; x02; x11; x24; x37; x4e; x5d; x68; x7b; x9a; x89; xbc; xaf; xd6; xc5; xf0; xe3; xc1; xd2; xe7; xf4; x8d; x9e; xab; xb8; x59; x4a; x7f; x6c; x15; x06; x33; x20; xec; xff; xca; xd9; xa0; xb3; x86; x95; x74; x67; x52; x41; x38; x2b; x1e; x0d; x9b; x88; xbd; xae; xd7; xc4; xf1; xe2; x03; x10; x25; x36; x4f; x5c; x69; x7a; xb6; xa5; x90; x83; xfa; xe9; xdc; xcf; x2e; x3d; x08; x1b; x62; x71; x44; x57];
   [x00; x14; x28; x3c; x50; x44; x78; x6c; xa0; xb4; x88; x9c; xf0; xe4; xd8; xcc; x5d; x49; x75; x61; x0d; x19; x25; x31; xfd; xe9; xd5; xc1; xad; xb9; x85; x91; xba; xae; x92; x86; xea; xfe; xc2; xd6; x1a; x0e; x32; x26; x4a; x5e; x62; x76; xe7; xf3; xcf; xdb; xb7; xa3; x9f; x8b; x47; x53; x6f; x7b; x17; x03; x3f; x2b; x69; x7d; x41; x55; x39; x2d; x11; x05; xc9; xdd; xe1; xf5; x99; x8d; xb1; xa5; x34; x20; x1c; x08; x64; x70; x4c; x58; x94; x80; xbc; xa8; xc4; xd0; xec; xf8; xd3; xc7; xfb; xef; x83; x97; xab; xbf; x73; x67; x5b; x4f; x23; x37; x0b; x1f; x8e; x9a; xa6; xb2; xde; xca; xf6; xe2; x2e; x3a; x06; x12; x7e; x6a; x56; x42; xd2; xc6; xfa; xee; x82; x96; xaa; xbe; x72; x66; x5a; x4e; x22; x36; x0a; x1e; x8f; x9b; xa7; xb3; xdf; xcb; xf7; xe3; x2f; x3b; x07; x13; x7f; x6b; x57; x43; x68; x7c; x40; x54; x38; x2c; x10; x04; xc8; xdc; xe0; xf4; x98; x8c; xb0; xa4; x35; x21; x1d; x09; x65; x71; x4d; x59; x95; x81; xbd; xa9; xc5; xd1; xed; xf9; xbb; xaf; x93; x87; xeb; xff; xc3; xd7; x1b; x0f; x33; x27; x4b; x5f; x63; x77; xe6; xf2; xce; xda; xb6; xa2; x9e; x8a; x46; x52; x6e; x7a; x16; x02; x3e; x2a; x01; x15; x29; x3d; x51; x45; x79; x6d; xa1; xb5; x89; x9d; xf1; xe5; xd9; xcd; x5c; x48; x74; x60; x0c; x18; x24; x30; xfc; xe8; xd4; xc0; xac; xb8; x84; x90];
   [x00; x15; x2a; x3f; x54; x41; x7e; x6b; xa8; xbd; x82; x97; xfc; xe9; xd6; xc3; x4d; x58; x67; x72; x19; x0c; x33; x26; xe5; xf0; xcf; xda; xb1; xa4; x9b; x8e; x9a; x8f; xb0; xa5; xce; xdb; xe4; xf1; x32; x27; x18; x0d; x66; x73; x4c; x59; xd7; xc2; xfd; xe8; x83; x96; xa9; xbc; x7f; x6a; x55; x40; x2b; x3e; x01; x14; x29; x3c; x03; x16; x7d; x68; x57; x42; x81; x94; xab; xbe; xd5; xc0; xff; xea; x64; x71; x4e; x5b; x30; x25; x1a; x0f; xcc; xd9; xe6; xf3; x98; x8d; xb2; xa7; xb3; xa6; x99; x8c; xe7; xf2; xcd; xd8; x1b; x0e; x31; x24; x4f; x5a; x65; x70; xfe; xeb; xd4; xc1; xaa; xbf; x80; x95; x56; x43; x7c; x69; x02; x17; x28; x3d; x52; x47; x78; x6d; x06; x13; x2c; x39; xfa; xef; xd0; xc5; xae; xbb; x84; x91; x1f; x0a; x35; x20; x4b; x5e; x61; x74; xb7; xa2; x9d; x88; xe3; xf6; xc9; xdc; xc8; xdd; xe2; xf7; x9c; x89; xb6; xa3; x60; x75; x4a; x5f; x34; x21; x1e; x0b; x85; x90; xaf; xba; xd1; xc4; xfb; xee; x2d; x38; x07; x12; x79; x6c; x53; x46; x7b; x6e; x51; x44; x2f; x3a; x05; x10; xd3; xc6; xf9; xec; x87; x92; xad; xb8; x36; x23; x1c; x09; x62; x77; x48; x5d; x9e; x8b; xb4; xa1; xca; xdf; xe0; xf5; xe1; xf4; xcb; xde; xb5; xa0; x9f; x8a; x49; x5c; x63; x76; x1d; x08; x37; x22; xac; xb9; x86; x93; xf8; xed; xd2; xc7; x04; x11; x2e; x3b; x50; x45; x7a; x6f];
   [x00; x16; x2c; x3a; x58; x4e; x74; x62; xb0; xa6; x9c; x8a; xe8; xfe; xc4; xd2; x7d; x6b; x51; x47; x25; x33; x09; x1f; xcd; xdb; xe1; xf7; x95; x83; xb9; xaf; xfa; xec; xd6; xc0; xa2; xb4; x8e; x98; x4a; x5c; x66; x70; x12; x04; x3e; x28; x87; x91; xab; xbd; xdf; xc9; xf3; xe5; x37; x21; x1b; x0d; x6f; x79; x43; x55; xe9; xff; xc5; xd3; xb1; xa7; x9d; x8b; x59; x4f; x75; x63; x01; x17; x2d; x3b; x94; x82; xb8; xae; xcc; xda; xe0; xf6; x24; x32; x08; x1e; x7c; x6a; x50; x46; x13; x05; x3f; x29; x4b; x5d; x67; x71; xa3; xb5; x8f; x99; xfb; xed; xd7; xc1; x6e; x78; x42; x54; x36; x20; x1a; x0c; xde; xc8; xf2; xe4; x86; x90; xaa; xbc; xcf; xd9; xe3; xf5; x97; x81; xbb; xad; x7f; x69; x53; x45; x27; x31; x0b; x1d; xb2; xa4; x9e; x88; xea; xfc; xc6; xd0; x02; x14; x2e; x38; x5a; x4c; x76; x60; x35; x23; x19; x0f; x6d; x7b; x41; x57; x85; x93; xa9; xbf; xdd; xcb; xf1; xe7; x48; x5e; x64; x72; x10; x06; x3c; x2a; xf8; xee; xd4; xc2; xa0; xb6; x8c; x9a; x26; x30; x0a; x1c; x7e; x68; x52; x44; x96; x80; xba; xac; xce; xd8; xe2; xf4; x5b; x4d; x77; x61; x03; x15; x2f; x39; xeb; xfd; xc7; xd1; xb3; xa5; x9f; x89; xdc; xca; xf0; xe6; x84; x92; xa8; xbe; x6c; x7a; x40; x56; x34; x22; x18; x0e; xa1; xb7; x8d; x9b; xf9; xef; xd5; xc3; x11; x07; x3d; x2b; x49; x5f; x65; x73];
   [x00; x17; x2e; x39; x5c; x4b; x72; x65; xb8; xaf; x96; x81; xe4; xf3; xca; xdd; x6d; x7a; x43; x54; x31; x26; x1f; x08; xd5; xc2; xfb; xec; x89; x9e; xa7; xb0; xda; xcd; xf4; xe3; x86; x91; xa8; xbf; x62; x75; x4c; x5b; x3e; x29; x10; x07; xb7; xa0; x99; x8e; xeb; xfc; xc5; xd2; x0f; x18; x21; x36; x53; x44; x7d; x6a; xa9; xbe; x87; x90; xf5; xe2; xdb; xcc; x11; x06; x3f; x28; x4d; x5a; x63; x74; xc4; xd3; xea; xfd; x98; x8f; xb6; xa1; x7c; x6b; x52; x45; x20; x37; x0e; x19; x73; x64; x5d; x4a; x2f; x38; x01; x16; xcb; xdc; xe5; xf2; x97; x80; xb9; xae; x1e; x09; x30; x27; x42; x55; x6c; x7b; xa6; xb1; x88; x9f; xfa; xed; xd4; xc3; x4f; x58; x61; x76; x13; x04; x3d; x2a; xf7; xe0; xd9; xce; xab; xbc; x85; x92; x22; x35; x0c; x1b; x7e; x69; x50; x47; x9a; x8d; xb4; xa3; xc6; xd1; xe8; xff; x95; x82; xbb; xac; xc9; xde; xe7; xf0; x2d; x3a; x03; x14; x71; x66; x5f; x48; xf8; xef; xd6; xc1; xa4; xb3; x8a; x9d; x40; x57; x6e; x79; x1c; x0b; x32; x25; xe6; xf1; xc8; xdf; xba; xad; x94; x83; x5e; x49; x70; x67; x02; x15; x2c; x3b; x8b; x9c; xa5; xb2; xd7; xc0; xf9; xee; x33; x24; x1d; x0a; x6f; x78; x41; x56; x3c; x2b; x12; x05; x60; x77; x4e; x59; x84; x93; xaa; xbd; xd8; xcf; xf6; xe1; x51; x46; x7f; x68; x0d; x1a; x23; x34; xe9; xfe; xc7; xd0; xb5; xa2; x9b; x8c];
   [x00; x18; x30; x28; x60; x78; x50; x48; xc0; xd8; xf0; xe8; xa0; xb8; x90; x88; x9d; x85; xad; xb5; xfd; xe5; xcd; xd5; x5d; x45; x6d; x75; x3d; x25; x0d; x15; x27; x3f; x17; x0f; x47; x5f; x77; x6f; xe7; xff; xd7; xcf; x87; x9f; xb7; xaf; xba; xa2; x8a; x92; xda; xc2; xea; xf2; x7a; x62; x4a; x52; x1a; x02; x2a; x32; x4e; x56; x7e; x66; x2e; x36; x1e; x06; x8e; x96; xbe; xa6; xee; xf6; xde; xc6; xd3; xcb; xe3; xfb; xb3; xab; x83; x9b; x13; x0b; x23; x3b; x73; x6b; x43; x5b; x69; x71; x59; x41; x09; x11; x39; x21; xa9; xb1; x99; x81; xc9; xd1; xf9; xe1; xf4; xec; xc4; xdc; x94; x8c; xa4; xbc; x34; x2c; x04; x1c; x54; x4c; x64; x7c; x9c; x84; xac; xb4; xfc; xe4; xcc; xd4; x5c; x44; x6c; x74; x3c; x24; x0c; x14; x01; x19; x31; x29; x61; x79; x51; x49; xc1; xd9; xf1; xe9; xa1; xb9; x91; x89; xbb; xa3; x8b; x93; xdb; xc3; xeb; xf3; x7b; x63; x4b; x53; x1b; x03; x2b; x33; x26; x3e; x16; x0e; x46; x5e; x76; x6e; xe6; xfe; xd6; xce; x86; x9e; xb6; xae; xd2; xca; xe2; xfa; xb2; xaa; x82; x9a; x12; x0a; x22; x3a; x72; x6a; x42; x5a; x4f; x57; x7f; x67; x2f; x37; x1f; x07; x8f; x97; xbf; xa7; xef; xf7; xdf; xc7; xf5; xed; xc5; xdd; x95; x8d; xa5; xbd; x35; x2d; x05; x1d; x55; x4d; x65; x7d; x68; x70; x58; x40; x08; x10; x38; x20; xa8; xb0; x98; x80; xc8; xd0; xf8; xe0];
   [x00; x19; x32; x2b; x64; x7d; x56; x4f; xc8; xd1; xfa; xe3; xac; xb5; x9e; x87; x8d; x94; xbf; xa6; xe9; xf0; xdb; xc2; x45; x5c; x77; x6e; x21; x38; x13; x0a; x07; x1e; x35; x2c; x63; x7a; x51; x48; xcf; xd6; xfd; xe4; xab; xb2; x99; x80; x8a; x93; xb8; xa1; xee; xf7; xdc; xc5; x42; x5b; x70; x69; x26; x3f; x14; x0d; x0e; x17; x3c; x25; x6a; x73; x58; x41; xc6; xdf; xf4; xed; xa2; xbb; x90; x89; x83; x9a; xb1; xa8; xe7; xfe; xd5; xcc; x4b; x52; x79; x60; x2f; x36; x1d; x04; x09; x10; x3b; x22; x6d; x74; x5f; x46; xc1; xd8; xf3; xea; xa5; xbc; x97; x8e; x84; x9d; xb6; xaf; xe0; xf9; xd2; xcb; x4c; x55; x7e; x67; x28; x31; x1a; x03; x1c; x05; x2e; x37; x78; x61; x4a; x53; xd4; xcd; xe6; xff; xb0; xa9; x82; x9b; x91; x88; xa3; xba; xf5; xec; xc7; xde; x59; x40; x6b; x72; x3d; x24; x0f; x16; x1b; x02; x29; x30; x7f; x66; x4d; x54; xd3; xca; xe1; xf8; xb7; xae; x85; x9c; x96; x8f; xa4; xbd; xf2; xeb; xc0; xd9; x5e; x47; x6c; x75; x3a; x23; x08; x11; x12; x0b; x20; x39; x76; x6f; x44; x5d; xda; xc3; xe8; xf1; xbe; xa7; x8c; x95; x9f; x86; xad; xb4; xfb; xe2; xc9; xd0; x57; x4e; x65; x7c; x33; x2a; x01; x18; x15; x0c; x27; x3e; x71; x68; x43; x5a; xdd; xc4; xef; xf6; xb9; xa0; x8b; x92; x98; x81; xaa; xb3; xfc; xe5; xce; xd7; x50; x49; x62; x7b; x34; x2d; x06; x1f];
   [x00; x1a; x34; x2e; x68; x72; x5c; x46; xd0; xca; xe4; xfe; xb8; xa2; x8c; x96; xbd; xa7; x89; x93; xd5; xcf; xe1; xfb; x6d; x77; x59; x43; x05; x1f; x31; x2b; x67; x7d; x53; x49; x0f; x15; x3b; x21; xb7; xad; x83; x99; xdf; xc5; xeb; xf1; xda; xc0; xee; xf4; xb2; xa8; x86; x9c; x0a; x10; x3e; x24; x62; x78; x56; x4c; xce; xd4; xfa; xe0; xa6; xbc; x92; x88; x1e; x04; x2a; x30; x76; x6c; x42; x58; x73; x69; x47; x5d; x1b; x01; x2f; x35; xa3; xb9; x97; x8d; xcb; xd1; xff; xe5; xa9; xb3; x9d; x87; xc1; xdb; xf5; xef; x79; x63; x4d; x57; x11; x0b; x25; x3f; x14; x0e; x20; x3a; x7c; x66; x48; x52; xc4; xde; xf0; xea; xac; xb6; x98; x82; x81; x9b; xb5; xaf; xe9; xf3; xdd; xc7; x51; x4b; x65; x7f; x39; x23; x0d; x17; x3c; x26; x08; x12; x54; x4e; x60; x7a; xec; xf6; xd8; xc2; x84; x9e; xb0; xaa; xe6; xfc; xd2; xc8; x8e; x94; xba; xa0; x36; x2c; x02; x18; x5e; x44; x6a; x70; x5b; x41; x6f; x75; x33; x29; x07; x1d; x8b; x91; xbf; xa5; xe3; xf9; xd7; xcd; x4f; x55; x7b; x61; x27; x3d; x13; x09; x9f; x85; xab; xb1; xf7; xed; xc3; xd9; xf2; xe8; xc6; xdc; x9a; x80; xae; xb4; x22; x38; x16; x0c; x4a; x50; x7e; x64; x28; x32; x1c; x06; x40; x5a; x74; x6e; xf8; xe2; xcc; xd6; x90; x8a; xa4; xbe; x95; x8f; xa1; xbb; xfd; xe7; xc9; xd3; x45; x5f; x71; x6b; x2d; x37; x19; x03];
   [x00; x1b; x36; x2d; x6c; x77; x5a; x41; xd8; xc3; xee; xf5; xb4; xaf; x82; x99; xad; xb6; x9b; x80; xc1; xda; xf7; xec; x75; x6e; x43; x58; x19; x02; x2f; x34; x47; x5c; x71; x6a; x2b; x30; x1d; x06; x9f; x84; xa9; xb2; xf3; xe8; xc5; xde; xea; xf1; xdc; xc7; x86; x9d; xb0; xab; x32; x29; x04; x1f; x5e; x45; x68; x73; x8e; x95; xb8; xa3; xe2; xf9; xd4; xcf; x56; x4d; x60; x7b; x3a; x21; x0c; x17; x23; x38; x15; x0e; x4f; x54; x79; x62; xfb; xe0; xcd; xd6; x97; x8c; xa1; xba; xc9; xd2; xff; xe4; xa5; xbe; x93; x88; x11; x0a; x27; x3c; x7d; x66; x4b; x50; x64; x7f; x52; x49; x08; x13; x3e; x25; xbc; xa7; x8a; x91; xd0; xcb; xe6; xfd; x01; x1a; x37; x2c; x6d; x76; x5b; x40; xd9; xc2; xef; xf4; xb5; xae; x83; x98; xac; xb7; x9a; x81; xc0; xdb; xf6; xed; x74; x6f; x42; x59; x18; x03; x2e; x35; x46; x5d; x70; x6b; x2a; x31; x1c; x07; x9e; x85; xa8; xb3; xf2; xe9; xc4; xdf; xeb; xf0; xdd; xc6; x87; x9c; xb1; xaa; x33; x28; x05; x1e; x5f; x44; x69; x72; x8f; x94; xb9; xa2; xe3; xf8; xd5; xce; x57; x4c; x61; x7a; x3b; x20; x0d; x16; x22; x39; x14; x0f; x4e; x55; x78; x63; xfa; xe1; xcc; xd7; x96; x8d; xa0; xbb; xc8; xd3; xfe; xe5; xa4; xbf; x92; x89; x10; x0b; x26; x3d; x7c; x67; x4a; x51; x65; x7e; x53; x48; x09; x12; x3f; x24; xbd; xa6; x8b; x90; xd1; xca; xe7; xfc];
   [x00; x1c; x38; x24; x70; x6c; x48; x54; xe0; xfc; xd8; xc4; x90; x8c; xa8; xb4; xdd; xc1; xe5; xf9; xad; xb1; x95; x89; x3d; x21; x05; x19; x4d; x51; x75; x69; xa7; xbb; x9f; x83; xd7; xcb; xef; xf3; x47; x5b; x7f; x63; x37; x2b; x0f; x13; x7a; x66; x42; x5e; x0a; x16; x32; x2e; x9a; x86; xa2; xbe; xea; xf6; xd2; xce; x53; x4f; x6b; x77; x23; x3f; x1b; x07; xb3; xaf; x8b; x97; xc3; xdf; xfb; xe7; x8e; x92; xb6; xaa; xfe; xe2; xc6; xda; x6e; x72; x56; x4a; x1e; x02; x26; x3a; xf4; xe8; xcc; xd0; x84; x98; xbc; xa0; x14; x08; x2c; x30; x64; x78; x5c; x40; x29; x35; x11; x0d; x59; x45; x61; x7d; xc9; xd5; xf1; xed; xb9; xa5; x81; x9d; xa6; xba; x9e; x82; xd6; xca; xee; xf2; x46; x5a; x7e; x62; x36; x2a; x0e; x12; x7b; x67; x43; x5f; x0b; x17; x33; x2f; x9b; x87; xa3; xbf; xeb; xf7; xd3; xcf; x01; x1d; x39; x25; x71; x6d; x49; x55; xe1; xfd; xd9; xc5; x91; x8d; xa9; xb5; xdc; xc0; xe4; xf8; xac; xb0; x94; x88; x3c; x20; x04; x18; x4c; x50; x74; x68; xf5; xe9; xcd; xd1; x85; x99; xbd; xa1; x15; x09; x2d; x31; x65; x79; x5d; x41; x28; x34; x10; x0c; x58; x44; x60; x7c; xc8; xd4; xf0; xec; xb8; xa4; x80; x9c; x52; x4e; x6a; x76; x22; x3e; x1a; x06; xb2; xae; x8a; x96; xc2; xde; xfa; xe6; x8f; x93; xb7; xab; xff; xe3; xc7; xdb; x6f; x73; x57; x4b; x1f; x03; x27; x3b];
   [x00; x1d; x3a; x27; x74; x69; x4e; x53; xe8; xf5; xd2; xcf; x9c; x81; xa6; xbb; xcd; xd0; xf7; xea; xb9; xa4; x83; x9e; x25; x38; x1f; x02; x51; x4c; x6b; x76; x87; x9a; xbd; xa0; xf3; xee; xc9; xd4; x6f; x72; x55; x48; x1b; x06; x21; x3c; x4a; x57; x70; x6d; x3e; x23; x04; x19; xa2; xbf; x98; x85; xd6; xcb; xec; xf1; x13; x0e; x29; x34; x67; x7a; x5d; x40; xfb; xe6; xc1; xdc; x8f; x92; xb5; xa8; xde; xc3; xe4; xf9; xaa; xb7; x90; x8d; x36; x2b; x0c; x11; x42; x5f; x78; x65; x94; x89; xae; xb3; xe0; xfd; xda; xc7; x7c; x61; x46; x5b; x08; x15; x32; x2f; x59; x44; x63; x7e; x2d; x30; x17; x0a; xb1; xac; x8b; x96; xc5; xd8; xff; xe2; x26; x3b; x1c; x01; x52; x4f; x68; x75; xce; xd3; xf4; xe9; xba; xa7; x80; x9d; xeb; xf6; xd1; xcc; x9f; x82; xa5; xb8; x03; x1e; x39; x24; x77; x6a; x4d; x50; xa1; xbc; x9b; x86; xd5; xc8; xef; xf2; x49; x54; x73; x6e; x3d; x20; x07; x1a; x6c; x71; x56; x4b; x18; x05; x22; x3f; x84; x99; xbe; xa3; xf0; xed; xca; xd7; x35; x28; x0f; x12; x41; x5c; x7b; x66; xdd; xc0; xe7; xfa; xa9; xb4; x93; x8e; xf8; xe5; xc2; xdf; x8c; x91; xb6; xab; x10; x0d; x2a; x37; x64; x79; x5e; x43; xb2; xaf; x88; x95; xc6; xdb; xfc; xe1; x5a; x47; x60; x7d; x2e; x33; x14; x09; x7f; x62; x45; x58; x0b; x16; x31; x2c; x97; x8a; xad; xb0; xe3; xfe; xd9; xc4];
   [x00; x1e; x3c; x22; x78; x66; x44; x5a; xf0; xee; xcc; xd2; x88; x96; xb4; xaa; xfd; xe3; xc1; xdf; x85; x9b; xb9; xa7; x0d; x13; x31; x2f; x75; x6b; x49; x57; xe7; xf9; xdb; xc5; x9f; x81; xa3; xbd; x17; x09; x2b; x35; x6f; x71; x53; x4d; x1a; x04; x26; x38; x62; x7c; x5e; x40; xea; xf4; xd6; xc8; x92; x8c; xae; xb0; xd3; xcd; xef; xf1; xab; xb5; x97; x89; x23; x3d; x1f; x01; x5b; x45; x67; x79; x2e; x30; x12; x0c; x56; x48; x6a; x74; xde; xc0; xe2; xfc; xa6; xb8; x9a; x84; x34; x2a; x08; x16; x4c; x52; x70; x6e; xc4; xda; xf8; xe6; xbc; xa2; x80; x9e; xc9; xd7; xf5; xeb; xb1; xaf; x8d; x93; x39; x27; x05; x1b; x41; x5f; x7d; x63; xbb; xa5; x87; x99; xc3; xdd; xff; xe1; x4b; x55; x77; x69; x33; x2d; x0f; x11; x46; x58; x7a; x64; x3e; x20; x02; x1c; xb6; xa8; x8a; x94; xce; xd0; xf2; xec; x5c; x42; x60; x7e; x24; x3a; x18; x06; xac; xb2; x90; x8e; xd4; xca; xe8; xf6; xa1; xbf; x9d; x83; xd9; xc7; xe5; xfb; x51; x4f; x6d; x73; x29; x37; x15; x0b; x68; x76; x54; x4a; x10; x0e; x2c; x32; x98; x86; xa4; xba; xe0; xfe; xdc; xc2; x95; x8b; xa9; xb7; xed; xf3; xd1; xcf; x65; x7b; x59; x47; x1d; x03; x21; x3f; x8f; x91; xb3; xad; xf7; xe9; xcb; xd5; x7f; x61; x43; x5d; x07; x19; x3b; x25; x72; x6c; x4e; x50; x0a; x14; x36; x28; x82; x9c; xbe; xa0; xfa; xe4; xc6; xd8];
   [x00; x1f; x3e; x21; x7c; x63; x42; x5d; xf8; xe7; xc6; xd9; x84; x9b; xba; xa5; xed; xf2; xd3; xcc; x91; x8e; xaf; xb0; x15; x0a; x2b; x34; x69; x76; x57; x48; xc7; xd8; xf9; xe6; xbb; xa4; x85; x9a; x3f; x20; x01; x1e; x43; x5c; x7d; x62; x2a; x35; x14; x0b; x56; x49; x68; x77; xd2; xcd; xec; xf3; xae; xb1; x90; x8f; x93; x8c; xad; xb2; xef; xf0; xd1; xce; x6b; x74; x55; x4a; x17; x08; x29; x36; x7e; x61; x40; x5f; x02; x1d; x3c; x23; x86; x99; xb8; xa7; xfa; xe5; xc4; xdb; x54; x4b; x6a; x75; x28; x37; x16; x09; xac; xb3; x92; x8d; xd0; xcf; xee; xf1; xb9; xa6; x87; x98; xc5; xda; xfb; xe4; x41; x5e; x7f; x60; x3d; x22; x03; x1c; x3b; x24; x05; x1a; x47; x58; x79; x66; xc3; xdc; xfd; xe2; xbf; xa0; x81; x9e; xd6; xc9; xe8; xf7; xaa; xb5; x94; x8b; x2e; x31; x10; x0f; x52; x4d; x6c; x73; xfc; xe3; xc2; xdd; x80; x9f; xbe; xa1; x04; x1b; x3a; x25; x78; x67; x46; x59; x11; x0e; x2f; x30; x6d; x72; x53; x4c; xe9; xf6; xd7; xc8; x95; x8a; xab; xb4; xa8; xb7; x96; x89; xd4; xcb; xea; xf5; x50; x4f; x6e; x71; x2c; x33; x12; x0d; x45; x5a; x7b; x64; x39; x26; x07; x18; xbd; xa2; x83; x9c; xc1; xde; xff; xe0; x6f; x70; x51; x4e; x13; x0c; x2d; x32; x97; x88; xa9; xb6; xeb; xf4; xd5; xca; x82; x9d; xbc; xa3; xfe; xe1; xc0; xdf; x7a; x65; x44; x5b; x06; x19; x38; x27];
   [x00; x20; x40; x60; x80; xa0; xc0; xe0; x1d; x3d; x5d; x7d; x9d; xbd; xdd; xfd; x3a; x1a; x7a; x5a; xba; x9a; xfa; xda; x27; x07; x67; x47; xa7; x87; xe7; xc7; x74; x54; x34; x14; xf4; xd4; xb4; x94; x69; x49; x29; x09; xe9; xc9; xa9; x89; x4e; x6e; x0e; x2e; xce; xee; x8e; xae; x53; x73; x13; x33; xd3; xf3; x93; xb3; xe8; xc8; xa8; x88; x68; x48; x28; x08; xf5; xd5; xb5; x95; x75; x55; x35; x15; xd2; xf2; x92; xb2; x52; x72; x12; x32; xcf; xef; x8f; xaf; x4f; x6f; x0f; x2f; x9c; xbc; xdc; xfc; x1c; x3c; x5c; x7c; x81; xa1; xc1; xe1; x01; x21; x41; x61; xa6; x86; xe6; xc6; x26; x06; x66; x46; xbb; x9b; xfb; xdb; x3b; x1b; x7b; x5b; xcd; xed; x8d; xad; x4d; x6d; x0d; x2d; xd0; xf0; x90; xb0; x50; x70; x10; x30; xf7; xd7; xb7; x97; x77; x57; x37; x17; xea; xca; xaa; x8a; x6a; x4a; x2a; x0a; xb9; x99; xf9; xd9; x39; x19; x79; x59; xa4; x84; xe4; xc4; x24; x04; x64; x44; x83; xa3; xc3; xe3; x03; x23; x43; x63; x9e; xbe; xde; xfe; x1e; x3e; x5e; x7e; x25; x05; x65; x45; xa5; x85; xe5; xc5; x38; x18; x78; x58; xb8; x98; xf8; xd8; x1f; x3f; x5f; x7f; x9f; xbf; xdf; xff; x02; x22; x42; x62; x82; xa2; xc2; xe2; x51; x71; x11; x31; xd1; xf1; x91; xb1; x4c; x6c; x0c; x2c; xcc; xec; x8c; xac; x6b; x4b; x2b; x0b; xeb; xcb; xab; x8b; x76; x56; x36; x16; xf6; xd6; xb6; x96];
   [x00; x21; x42; x63; x84; xa5; xc6; xe7; x15; x34; x57; x76; x91; xb0; xd3; xf2; x2a; x0b; x68; x49; xae; x8f; xec; xcd; x3f; x1e; x7d; x5c; xbb; x9a; xf9; xd8; x54; x75; x16; x37; xd0; xf1; x92; xb3; x41; x60; x03; x22; xc5; xe4; x87; xa6; x7e; x5f; x3c; x1d; xfa; xdb; xb8; x99; x6b; x4a; x29; x08; xef; xce; xad; x8c; xa8; x89; xea; xcb; x2c; x0d; x6e; x4f; xbd; x9c; xff; xde; x39; x18; x7b; x5a; x82; xa3; xc0; xe1; x06; x27; x44; x65; x97; xb6; xd5; xf4; x13; x32; x51; x70; xfc; xdd; xbe; x9f; x78; x59; x3a; x1b; xe9; xc8; xab; x8a; x6d; x4c; x2f; x0e; xd6; xf7; x94; xb5; x52; x73; x10; x31; xc3; xe2; x81; xa0; x47; x66; x05; x24; x4d; x6c; x0f; x2e; xc9; xe8; x8b; xaa; x58; x79; x1a; x3b; xdc; xfd; x9e; xbf; x67; x46; x25; x04; xe3; xc2; xa1; x80; x72; x53; x30; x11; xf6; xd7; xb4; x95; x19; x38; x5b; x7a; x9d; xbc; xdf; xfe; x0c; x2d; x4e; x6f; x88; xa9; xca; xeb; x33; x12; x71; x50; xb7; x96; xf5; xd4; x26; x07; x64; x45; xa2; x83; xe0; xc1; xe5; xc4; xa7; x86; x61; x40; x23; x02; xf0; xd1; xb2; x93; x74; x55; x36; x17; xcf; xee; x8d; xac; x4b; x6a; x09; x28; xda; xfb; x98; xb9; x5e; x7f; x1c; x3d; xb1; x90; xf3; xd2; x35; x14; x77; x56; xa4; x85; xe6; xc7; x20; x01; x62; x43; x9b; xba; xd9; xf8; x1f; x3e; x5d; x7c; x8e; xaf; xcc; xed; x0a; x2b; x48; x69];
   [x00; x22; x44; x66; x88; xaa; xcc; xee; x0d; x2f; x49; x6b; x85; xa7; xc1; xe3; x1a; x38; x5e; x7c; x92; xb0; xd6; xf4; x17; x35; x53; x71; x9f; xbd; xdb; xf9; x34; x16; x70; x52; xbc; x9e; xf8; xda; x39; x1b; x7d; x5f; xb1; x93; xf5; xd7; x2e; x0c; x6a; x48; xa6; x84; xe2; xc0; x23; x01; x67; x45; xab; x89; xef; xcd; x68; x4a; x2c; x0e; xe0; xc2; xa4; x86; x65; x47; x21; x03; xed; xcf; xa9; x8b; x72; x50; x36; x14; xfa; xd8; xbe; x9c; x7f; x5d; x3b; x19; xf7; xd5; xb3; x91; x5c; x7e; x18; x3a; xd4; xf6; x90; xb2; x51; x73; x15; x37; xd9; xfb; x9d; xbf; x46; x64; x02; x20; xce; xec; x8a; xa8; x4b; x69; x0f; x2d; xc3; xe1; x87; xa5; xd0; xf2; x94; xb6; x58; x7a; x1c; x3e; xdd; xff; x99; xbb; x55; x77; x11; x33; xca; xe8; x8e; xac; x42; x60; x06; x24; xc7; xe5; x83; xa1; x4f; x6d; x0b; x29; xe4; xc6; xa0; x82; x6c; x4e; x28; x0a; xe9; xcb; xad; x8f; x61; x43; x25; x07; xfe; xdc; xba; x98; x76; x54; x32; x10; xf3; xd1; xb7; x95; x7b; x59; x3f; x1d; xb8; x9a; xfc; xde; x30; x12; x74; x56; xb5; x97; xf1; xd3; x3d; x1f; x79; x5b; xa2; x80; xe6; xc4; x2a; x08; x6e; x4c; xaf; x8d; xeb; xc9; x27; x05; x63; x41; x8c; xae; xc8; xea; x04; x26; x40; x62; x81; xa3; xc5; xe7; x09; x2b; x4d; x6f; x96; xb4; xd2; xf0; x1e; x3c; x5a; x78; x9b; xb9; xdf; xfd; x13; x31; x57; x75];
   [x00; x23; x46; x65; x8c; xaf; xca; xe9; x05; x26; x43; x60; x89; xaa; xcf; xec; x0a; x29; x4c; x6f; x86; xa5; xc0; xe3; x0f; x2c; x49; x6a; x83; xa0; xc5; xe6; x14; x37; x52; x71; x98; xbb; xde; xfd; x11; x32; x57; x74; x9d; xbe; xdb; xf8; x1e; x3d; x58; x7b; x92; xb1; xd4; xf7; x1b; x38; x5d; x7e; x97; xb4; xd1; xf2; x28; x0b; x6e; x4d; xa4; x87; xe2; xc1; x2d; x0e; x6b; x48; xa1; x82; xe7; xc4; x22; x01; x64; x47; xae; x8d; xe8; xcb; x27; x04; x61; x42; xab; x88; xed; xce; x3c; x1f; x7a; x59; xb0; x93; xf6; xd5; x39; x1a; x7f; x5c; xb5; x96; xf3; xd0; x36; x15; x70; x53; xba; x99; xfc; xdf; x33; x10; x75; x56; xbf; x9c; xf9; xda; x50; x73; x16; x35; xdc; xff; x9a; xb9; x55; x76; x13; x30; xd9; xfa; x9f; xbc; x5a; x79; x1c; x3f; xd6; xf5; x90; xb3; x5f; x7c; x19; x3a; xd3; xf0; x95; xb6; x44; x67; x02; x21; xc8; xeb; x8e; xad; x41; x62; x07; x24; xcd; xee; x8b; xa8; x4e; x6d; x08; x2b; xc2; xe1; x84; xa7; x4b; x68; x0d; x2e; xc7; xe4; x81; xa2; x78; x5b; x3e; x1d; xf4; xd7; xb2; x91; x7d; x5e; x3b; x18; xf1; xd2; xb7; x94; x72; x51; x34; x17; xfe; xdd; xb8; x9b; x77; x54; x31; x12; xfb; xd8; xbd; x9e; x6c; x4f; x2a; x09; xe0; xc3; xa6; x85; x69; x4a; x2f; x0c; xe5; xc6; xa3; x80; x66; x45; x20; x03; xea; xc9; xac; x8f; x63; x40; x25; x06; xef; xcc; xa9; x8a];
   [x00; x24; x48; x6c; x90; xb4; xd8; xfc; x3d; x19; x75; x51; xad; x89; xe5; xc1; x7a; x5e; x32; x16; xea; xce; xa2; x86; x47; x63; x0f; x2b; xd7; xf3; x9f; xbb; xf4; xd0; xbc; x98; x64; x40; x2c; x08; xc9; xed; x81; xa5; x59; x7d; x11; x35; x8e; xaa; xc6; xe2; x1e; x3a; x56; x72; xb3; x97; xfb; xdf; x23; x07; x6b; x4f; xf5; xd1; xbd; x99; x65; x41; x2d; x09; xc8; xec; x80; xa4; x58; x7c; x10; x34; x8f; xab; xc7; xe3; x1f; x3b; x57; x73; xb2; x96; xfa; xde; x22; x06; x6a; x4e; x01; x25; x49; x6d; x91; xb5; xd9; xfd; x3c; x18; x74; x50; xac; x88; xe4; xc0; x7b; x5f; x33; x17; xeb; xcf; xa3; x87; x46; x62; x0e; x2a; xd6; xf2; x9e; xba; xf7; xd3; xbf; x9b; x67; x43; x2f; x0b; xca; xee; x82; xa6; x5a; x7e; x12; x36; x8d; xa9; xc5; xe1; x1d; x39; x55; x71; xb0; x94; xf8; xdc; x20; x04; x68; x4c; x03; x27; x4b; x6f; x93; xb7; xdb; xff; x3e; x1a; x76; x52; xae; x8a; xe6; xc2; x79; x5d; x31; x15; xe9; xcd; xa1; x85; x44; x60; x0c; x28; xd4; xf0; x9c; xb8; x02; x26; x4a; x6e; x92; xb6; xda; xfe; x3f; x1b; x77; x53; xaf; x8b; xe7; xc3; x78; x5c; x30; x14; xe8; xcc; xa0; x84; x45; x61; x0d; x29; xd5; xf1; x9d; xb9; xf6; xd2; xbe; x9a; x66; x42; x2e; x0a; xcb; xef; x83; xa7; x5b; x7f; x13; x37; x8c; xa8; xc4; xe0; x1c; x38; x54; x70; xb1; x95; xf9; xdd; x21; x05; x69; x4d];
   [x00; x25; x4a; x6f; x94; xb1; xde; xfb; x35; x10; x7f; x5a; xa1; x84; xeb; xce; x6a; x4f; x20; x05; xfe; xdb; xb4; x91; x5f; x7a; x15; x30; xcb; xee; x81; xa4; xd4; xf1; x9e; xbb; x40; x65; x0a; x2f; xe1; xc4; xab; x8e; x75; x50; x3f; x1a; xbe; x9b; xf4; xd1; x2a; x0f; x60; x45; x8b; xae; xc1; xe4; x1f; x3a; x55; x70; xb5; x90; xff; xda; x21; x04; x6b; x4e; x80; xa5; xca; xef; x14; x31; x5e; x7b; xdf; xfa; x95; xb0; x4b; x6e; x01; x24; xea; xcf; xa0; x85; x7e; x5b; x34; x11; x61; x44; x2b; x0e; xf5; xd0; xbf; x9a; x54; x71; x1e; x3b; xc0; xe5; x8a; xaf; x0b; x2e; x41; x64; x9f; xba; xd5; xf0; x3e; x1b; x74; x51; xaa; x8f; xe0; xc5; x77; x52; x3d; x18; xe3; xc6; xa9; x8c; x42; x67; x08; x2d; xd6; xf3; x9c; xb9; x1d; x38; x57; x72; x89; xac; xc3; xe6; x28; x0d; x62; x47; xbc; x99; xf6; xd3; xa3; x86; xe9; xcc; x37; x12; x7d; x58; x96; xb3; xdc; xf9; x02; x27; x48; x6d; xc9; xec; x83; xa6; x5d; x78; x17; x32; xfc; xd9; xb6; x93; x68; x4d; x22; x07; xc2; xe7; x88; xad; x56; x73; x1c; x39; xf7; xd2; xbd; x98; x63; x46; x29; x0c; xa8; x8d; xe2; xc7; x3c; x19; x76; x53; x9d; xb8; xd7; xf2; x09; x2c; x43; x66; x16; x33; x5c; x79; x82; xa7; xc8; xed; x23; x06; x69; x4c; xb7; x92; xfd; xd8; x7c; x59; x36; x13; xe8; xcd; xa2; x87; x49; x6c; x03; x26; xdd; xf8; x97; xb2];
   [x00; x26; x4c; x6a; x98; xbe; xd4; xf2; x2d; x0b; x61; x47; xb5; x93; xf9; xdf; x5a; x7c; x16; x30; xc2; xe4; x8e; xa8; x77; x51; x3b; x1d; xef; xc9; xa3; x85; xb4; x92; xf8; xde; x2c; x0a; x60; x46; x99; xbf; xd5; xf3; x01; x27; x4d; x6b; xee; xc8; xa2; x84; x76; x50; x3a; x1c; xc3; xe5; x8f; xa9; x5b; x7d; x17; x31; x75; x53; x39; x1f; xed; xcb; xa1; x87; x58; x7e; x14; x32; xc0; xe6; x8c; xaa; x2f; x09; x63; x45; xb7; x91; xfb; xdd; x02; x24; x4e; x68; x9a; xbc; xd6; xf0; xc1; xe7; x8d; xab; x59; x7f; x15; x33; xec; xca; xa0; x86; x74; x52; x38; x1e; x9b; xbd; xd7; xf1; x03; x25; x4f; x69; xb6; x90; xfa; xdc; x2e; x08; x62; x44; xea; xcc; xa6; x80; x72; x54; x3e; x18; xc7; xe1; x8b; xad; x5f; x79; x13; x35; xb0; x96; xfc; xda; x28; x0e; x64; x42; x9d; xbb; xd1; xf7; x05; x23; x49; x6f; x5e; x78; x12; x34; xc6; xe0; x8a; xac; x73; x55; x3f; x19; xeb; xcd; xa7; x81; x04; x22; x48; x6e; x9c; xba; xd0; xf6; x29; x0f; x65; x43; xb1; x97; xfd; xdb; x9f; xb9; xd3; xf5; x07; x21; x4b; x6d; xb2; x94; xfe; xd8; x2a; x0c; x66; x40; xc5; xe3; x89; xaf; x5d; x7b; x11; x37; xe8; xce; xa4; x82; x70; x56; x3c; x1a; x2b; x0d; x67; x41; xb3; x95; xff; xd9; x06; x20; x4a; x6c; x9e; xb8; xd2; xf4; x71; x57; x3d; x1b; xe9; xcf; xa5; x83; x5c; x7a; x10; x36; xc4; xe2; x88; xae];
   [x00; x27; x4e; x69; x9c; xbb; xd2; xf5; x25; x02; x6b; x4c; xb9; x9e; xf7; xd0; x4a; x6d; x04; x23; xd6; xf1; x98; xbf; x6f; x48; x21; x06; xf3; xd4; xbd; x9a; x94; xb3; xda; xfd; x08; x2f; x46; x61; xb1; x96; xff; xd8; x2d; x0a; x63; x44; xde; xf9; x90; xb7; x42; x65; x0c; x2b; xfb; xdc; xb5; x92; x67; x40; x29; x0e; x35; x12; x7b; x5c; xa9; x8e; xe7; xc0; x10; x37; x5e; x79; x8c; xab; xc2; xe5; x7f; x58; x31; x16; xe3; xc4; xad; x8a; x5a; x7d; x14; x33; xc6; xe1; x88; xaf; xa1; x86; xef; xc8; x3d; x1a; x73; x54; x84; xa3; xca; xed; x18; x3f; x56; x71; xeb; xcc; xa5; x82; x77; x50; x39; x1e; xce; xe9; x80; xa7; x52; x75; x1c; x3b; x6a; x4d; x24; x03; xf6; xd1; xb8; x9f; x4f; x68; x01; x26; xd3; xf4; x9d; xba; x20; x07; x6e; x49; xbc; x9b; xf2; xd5; x05; x22; x4b; x6c; x99; xbe; xd7; xf0; xfe; xd9; xb0; x97; x62; x45; x2c; x0b; xdb; xfc; x95; xb2; x47; x60; x09; x2e; xb4; x93; xfa; xdd; x28; x0f; x66; x41; x91; xb6; xdf; xf8; x0d; x2a; x43; x64; x5f; x78; x11; x36; xc3; xe4; x8d; xaa; x7a; x5d; x34; x13; xe6; xc1; xa8; x8f; x15; x32; x5b; x7c; x89; xae; xc7; xe0; x30; x17; x7e; x59; xac; x8b; xe2; xc5; xcb; xec; x85; xa2; x57; x70; x19; x3e; xee; xc9; xa0; x87; x72; x55; x3c; x1b; x81; xa6; xcf; xe8; x1d; x3a; x53; x74; xa4; x83; xea; xcd; x38; x1f; x76; x51];
   [x00; x28; x50; x78; xa0; x88; xf0; xd8; x5d; x75; x0d; x25; xfd; xd5; xad; x85; xba; x92; xea; xc2; x1a; x32; x4a; x62; xe7; xcf; xb7; x9f; x47; x6f; x17; x3f; x69; x41; x39; x11; xc9; xe1; x99; xb1; x34; x1c; x64; x4c; x94; xbc; xc4; xec; xd3; xfb; x83; xab; x73; x5b; x23; x0b; x8e; xa6; xde; xf6; x2e; x06; x7e; x56; xd2; xfa; x82; xaa; x72; x5a; x22; x0a; x8f; xa7; xdf; xf7; x2f; x07; x7f; x57; x68; x40; x38; x10; xc8; xe0; x98; xb0; x35; x1d; x65; x4d; x95; xbd; xc5; xed; xbb; x93; xeb; xc3; x1b; x33; x4b; x63; xe6; xce; xb6; x9e; x46; x6e; x16; x3e; x01; x29; x51; x79; xa1; x89; xf1; xd9; x5c; x74; x0c; x24; xfc; xd4; xac; x84; xb9; x91; xe9; xc1; x19; x31; x49; x61; xe4; xcc; xb4; x9c; x44; x6c; x14; x3c; x03; x2b; x53; x7b; xa3; x8b; xf3; xdb; x5e; x76; x0e; x26; xfe; xd6; xae; x86; xd0; xf8; x80; xa8; x70; x58; x20; x08; x8d; xa5; xdd; xf5; x2d; x05; x7d; x55; x6a; x42; x3a; x12; xca; xe2; x9a; xb2; x37; x1f; x67; x4f; x97; xbf; xc7; xef; x6b; x43; x3b; x13; xcb; xe3; x9b; xb3; x36; x1e; x66; x4e; x96; xbe; xc6; xee; xd1; xf9; x81; xa9; x71; x59; x21; x09; x8c; xa4; xdc; xf4; x2c; x04; x7c; x54; x02; x2a; x52; x7a; xa2; x8a; xf2; xda; x5f; x77; x0f; x27; xff; xd7; xaf; x87; xb8; x90; xe8; xc0; x18; x30; x48; x60; xe5; xcd; xb5; x9d; x45; x6d; x15; x3d];
   [x00; x29; x52; x7b; xa4; x8d; xf6; xdf; x55; x7c; x07; x2e; xf1; xd8; xa3; x8a; xaa; x83; xf8; xd1; x0e; x27; x5c; x75; xff; xd6; xad; x84; x5b; x72; x09; x20; x49; x60; x1b; x32; xed; xc4; xbf; x96; x1c; x35; x4e; x67; xb8; x91; xea; xc3; xe3; xca; xb1; x98; x47; x6e; x15; x3c; xb6; x9f; xe4; xcd; x12; x3b; x40; x69; x92; xbb; xc0; xe9; x36; x1f; x64; x4d; xc7; xee; x95; xbc; x63; x4a; x31; x18; x38; x11; x6a; x43; x9c; xb5; xce; xe7; x6d; x44; x3f; x16; xc9; xe0; x9b; xb2; xdb; xf2; x89; xa0; x7f; x56; x2d; x04; x8e; xa7; xdc; xf5; x2a; x03; x78; x51; x71; x58; x23; x0a; xd5; xfc; x87; xae; x24; x0d; x76; x5f; x80; xa9; xd2; xfb; x39; x10; x6b; x42; x9d; xb4; xcf; xe6; x6c; x45; x3e; x17; xc8; xe1; x9a; xb3; x93; xba; xc1; xe8; x37; x1e; x65; x4c; xc6; xef; x94; xbd; x62; x4b; x30; x19; x70; x59; x22; x0b; xd4; xfd; x86; xaf; x25; x0c; x77; x5e; x81; xa8; xd3; xfa; xda; xf3; x88; xa1; x7e; x57; x2c; x05; x8f; xa6; xdd; xf4; x2b; x02; x79; x50; xab; x82; xf9; xd0; x0f; x26; x5d; x74; xfe; xd7; xac; x85; x5a; x73; x08; x21; x01; x28; x53; x7a; xa5; x8c; xf7; xde; x54; x7d; x06; x2f; xf0; xd9; xa2; x8b; xe2; xcb; xb0; x99; x46; x6f; x14; x3d; xb7; x9e; xe5; xcc; x13; x3a; x41; x68; x48; x61; x1a; x33; xec; xc5; xbe; x97; x1d; x34; x4f; x66; xb9; x90; xeb; xc2];
   [x00; x2a; x54; x7e; xa8; x82; xfc; xd6; x4d; x67; x19; x33; xe5; xcf; xb1; x9b; x9a; xb0; xce; xe4; x32; x18; x66; x4c; xd7; xfd; x83; xa9; x7f; x55; x2b; x01; x29; x03; x7d; x57; x81; xab; xd5; xff; x64; x4e; x30; x1a; xcc; xe6; x98; xb2; xb3; x99; xe7; xcd; x1b; x31; x4f; x65; xfe; xd4; xaa; x80; x56; x7c; x02; x28; x52; x78; x06; x2c; xfa; xd0; xae; x84; x1f; x35; x4b; x61; xb7; x9d; xe3; xc9; xc8; xe2; x9c; xb6; x60; x4a; x34; x1e; x85; xaf; xd1; xfb; x2d; x07; x79; x53; x7b; x51; x2f; x05; xd3; xf9; x87; xad; x36; x1c; x62; x48; x9e; xb4; xca; xe0; xe1; xcb; xb5; x9f; x49; x63; x1d; x37; xac; x86; xf8; xd2; x04; x2e; x50; x7a; xa4; x8e; xf0; xda; x0c; x26; x58; x72; xe9; xc3; xbd; x97; x41; x6b; x15; x3f; x3e; x14; x6a; x40; x96; xbc; xc2; xe8; x73; x59; x27; x0d; xdb; xf1; x8f; xa5; x8d; xa7; xd9; xf3; x25; x0f; x71; x5b; xc0; xea; x94; xbe; x68; x42; x3c; x16; x17; x3d; x43; x69; xbf; x95; xeb; xc1; x5a; x70; x0e; x24; xf2; xd8; xa6; x8c; xf6; xdc; xa2; x88; x5e; x74; x0a; x20; xbb; x91; xef; xc5; x13; x39; x47; x6d; x6c; x46; x38; x12; xc4; xee; x90; xba; x21; x0b; x75; x5f; x89; xa3; xdd; xf7; xdf; xf5; x8b; xa1; x77; x5d; x23; x09; x92; xb8; xc6; xec; x3a; x10; x6e; x44; x45; x6f; x11; x3b; xed; xc7; xb9; x93; x08; x22; x5c; x76; xa0; x8a; xf4; xde];
   [x00; x2b; x56; x7d; xac; x87; xfa; xd1; x45; x6e; x13; x38; xe9; xc2; xbf; x94; x8a; xa1; xdc; xf7; x26; x0d; x70; x5b; xcf; xe4; x99; xb2; x63; x48; x35; x1e; x09; x22; x5f; x74; xa5; x8e; xf3; xd8; x4c; x67; x1a; x31; xe0; xcb; xb6; x9d; x83; xa8; xd5; xfe; x2f; x04; x79; x52; xc6; xed; x90; xbb; x6a; x41; x3c; x17; x12; x39; x44; x6f; xbe; x95; xe8; xc3; x57; x7c; x01; x2a; xfb; xd0; xad; x86; x98; xb3; xce; xe5; x34; x1f; x62; x49; xdd; xf6; x8b; xa0; x71; x5a; x27; x0c; x1b; x30; x4d; x66; xb7; x9c; xe1; xca; x5e; x75; x08; x23; xf2; xd9; xa4; x8f; x91; xba; xc7; xec; x3d; x16; x6b; x40; xd4; xff; x82; xa9; x78; x53; x2e; x05; x24; x0f; x72; x59; x88; xa3; xde; xf5; x61; x4a; x37; x1c; xcd; xe6; x9b; xb0; xae; x85; xf8; xd3; x02; x29; x54; x7f; xeb; xc0; xbd; x96; x47; x6c; x11; x3a; x2d; x06; x7b; x50; x81; xaa; xd7; xfc; x68; x43; x3e; x15; xc4; xef; x92; xb9; xa7; x8c; xf1; xda; x0b; x20; x5d; x76; xe2; xc9; xb4; x9f; x4e; x65; x18; x33; x36; x1d; x60; x4b; x9a; xb1; xcc; xe7; x73; x58; x25; x0e; xdf; xf4; x89; xa2; xbc; x97; xea; xc1; x10; x3b; x46; x6d; xf9; xd2; xaf; x84; x55; x7e; x03; x28; x3f; x14; x69; x42; x93; xb8; xc5; xee; x7a; x51; x2c; x07; xd6; xfd; x80; xab; xb5; x9e; xe3; xc8; x19; x32; x4f; x64; xf0; xdb; xa6; x8d; x5c; x77; x0a; x21];
   [x00; x2c; x58; x74; xb0; x9c; xe8; xc4; x7d; x51; x25; x09; xcd; xe1; x95; xb9; xfa; xd6; xa2; x8e; x4a; x66; x12; x3e; x87; xab; xdf; xf3; x37; x1b; x6f; x43; xe9; xc5; xb1; x9d; x59; x75; x01; x2d; x94; xb8; xcc; xe0; x24; x08; x7c; x50; x13; x3f; x4b; x67; xa3; x8f; xfb; xd7; x6e; x42; x36; x1a; xde; xf2; x86; xaa; xcf; xe3; x97; xbb; x7f; x53; x27; x0b; xb2; x9e; xea; xc6; x02; x2e; x5a; x76; x35; x19; x6d; x41; x85; xa9; xdd; xf1; x48; x64; x10; x3c; xf8; xd4; xa0; x8c; x26; x0a; x7e; x52; x96; xba; xce; xe2; x5b; x77; x03; x2f; xeb; xc7; xb3; x9f; xdc; xf0; x84; xa8; x6c; x40; x34; x18; xa1; x8d; xf9; xd5; x11; x3d; x49; x65; x83; xaf; xdb; xf7; x33; x1f; x6b; x47; xfe; xd2; xa6; x8a; x4e; x62; x16; x3a; x79; x55; x21; x0d; xc9; xe5; x91; xbd; x04; x28; x5c; x70; xb4; x98; xec; xc0; x6a; x46; x32; x1e; xda; xf6; x82; xae; x17; x3b; x4f; x63; xa7; x8b; xff; xd3; x90; xbc; xc8; xe4; x20; x0c; x78; x54; xed; xc1; xb5; x99; x5d; x71; x05; x29; x4c; x60; x14; x38; xfc; xd0; xa4; x88; x31; x1d; x69; x45; x81; xad; xd9; xf5; xb6; x9a; xee; xc2; x06; x2a; x5e; x72; xcb; xe7; x93; xbf; x7b; x57; x23; x0f; xa5; x89; xfd; xd1; x15; x39; x4d; x61; xd8; xf4; x80; xac; x68; x44; x30; x1c; x5f; x73; x07; x2b; xef; xc3; xb7; x9b; x22; x0e; x7a; x56; x92; xbe; xca; xe6];
   [x00; x2d; x5a; x77; xb4; x99; xee; xc3; x75; x58; x2f; x02; xc1; xec; x9b; xb6; xea; xc7; xb0; x9d; x5e; x73; x04; x29; x9f; xb2; xc5; xe8; x2b; x06; x71; x5c; xc9; xe4; x93; xbe; x7d; x50; x27; x0a; xbc; x91; xe6; xcb; x08; x25; x52; x7f; x23; x0e; x79; x54; x97; xba; xcd; xe0; x56; x7b; x0c; x21; xe2; xcf; xb8; x95; x8f; xa2; xd5; xf8; x3b; x16; x61; x4c; xfa; xd7; xa0; x8d; x4e; x63; x14; x39; x65; x48; x3f; x12; xd1; xfc; x8b; xa6; x10; x3d; x4a; x67; xa4; x89; xfe; xd3; x46; x6b; x1c; x31; xf2; xdf; xa8; x85; x33; x1e; x69; x44; x87; xaa; xdd; xf0; xac; x81; xf6; xdb; x18; x35; x42; x6f; xd9; xf4; x83; xae; x6d; x40; x37; x1a; x03; x2e; x59; x74; xb7; x9a; xed; xc0; x76; x5b; x2c; x01; xc2; xef; x98; xb5; xe9; xc4; xb3; x9e; x5d; x70; x07; x2a; x9c; xb1; xc6; xeb; x28; x05; x72; x5f; xca; xe7; x90; xbd; x7e; x53; x24; x09; xbf; x92; xe5; xc8; x0b; x26; x51; x7c; x20; x0d; x7a; x57; x94; xb9; xce; xe3; x55; x78; x0f; x22; xe1; xcc; xbb; x96; x8c; xa1; xd6; xfb; x38; x15; x62; x4f; xf9; xd4; xa3; x8e; x4d; x60; x17; x3a; x66; x4b; x3c; x11; xd2; xff; x88; xa5; x13; x3e; x49; x64; xa7; x8a; xfd; xd0; x45; x68; x1f; x32; xf1; xdc; xab; x86; x30; x1d; x6a; x47; x84; xa9; xde; xf3; xaf; x82; xf5; xd8; x1b; x36; x41; x6c; xda; xf7; x80; xad; x6e; x43; x34; x19];
   [x00; x2e; x5c; x72; xb8; x96; xe4; xca; x6d; x43; x31; x1f; xd5; xfb; x89; xa7; xda; xf4; x86; xa8; x62; x4c; x3e; x10; xb7; x99; xeb; xc5; x0f; x21; x53; x7d; xa9; x87; xf5; xdb; x11; x3f; x4d; x63; xc4; xea; x98; xb6; x7c; x52; x20; x0e; x73; x5d; x2f; x01; xcb; xe5; x97; xb9; x1e; x30; x42; x6c; xa6; x88; xfa; xd4; x4f; x61; x13; x3d; xf7; xd9; xab; x85; x22; x0c; x7e; x50; x9a; xb4; xc6; xe8; x95; xbb; xc9; xe7; x2d; x03; x71; x5f; xf8; xd6; xa4; x8a; x40; x6e; x1c; x32; xe6; xc8; xba; x94; x5e; x70; x02; x2c; x8b; xa5; xd7; xf9; x33; x1d; x6f; x41; x3c; x12; x60; x4e; x84; xaa; xd8; xf6; x51; x7f; x0d; x23; xe9; xc7; xb5; x9b; x9e; xb0; xc2; xec; x26; x08; x7a; x54; xf3; xdd; xaf; x81; x4b; x65; x17; x39; x44; x6a; x18; x36; xfc; xd2; xa0; x8e; x29; x07; x75; x5b; x91; xbf; xcd; xe3; x37; x19; x6b; x45; x8f; xa1; xd3; xfd; x5a; x74; x06; x28; xe2; xcc; xbe; x90; xed; xc3; xb1; x9f; x55; x7b; x09; x27; x80; xae; xdc; xf2; x38; x16; x64; x4a; xd1; xff; x8d; xa3; x69; x47; x35; x1b; xbc; x92; xe0; xce; x04; x2a; x58; x76; x0b; x25; x57; x79; xb3; x9d; xef; xc1; x66; x48; x3a; x14; xde; xf0; x82; xac; x78; x56; x24; x0a; xc0; xee; x9c; xb2; x15; x3b; x49; x67; xad; x83; xf1; xdf; xa2; x8c; xfe; xd0; x1a; x34; x46; x68; xcf; xe1; x93; xbd; x77; x59; x2b; x05];
   [x00; x2f; x5e; x71; xbc; x93; xe2; xcd; x65; x4a; x3b; x14; xd9; xf6; x87; xa8; xca; xe5; x94; xbb; x76; x59; x28; x07; xaf; x80; xf1; xde; x13; x3c; x4d; x62; x89; xa6; xd7; xf8; x35; x1a; x6b; x44; xec; xc3; xb2; x9d; x50; x7f; x0e; x21; x43; x6c; x1d; x32; xff; xd0; xa1; x8e; x26; x09; x78; x57; x9a; xb5; xc4; xeb; x0f; x20; x51; x7e; xb3; x9c; xed; xc2; x6a; x45; x34; x1b; xd6; xf9; x88; xa7; xc5; xea; x9b; xb4; x79; x56; x27; x08; xa0; x8f; xfe; xd1; x1c; x33; x42; x6d; x86; xa9; xd8; xf7; x3a; x15; x64; x4b; xe3; xcc; xbd; x92; x5f; x70; x01; x2e; x4c; x63; x12; x3d; xf0; xdf; xae; x81; x29; x06; x77; x58; x95; xba; xcb; xe4; x1e; x31; x40; x6f; xa2; x8d; xfc; xd3; x7b; x54; x25; x0a; xc7; xe8; x99; xb6; xd4; xfb; x8a; xa5; x68; x47; x36; x19; xb1; x9e; xef; xc0; x0d; x22; x53; x7c; x97; xb8; xc9; xe6; x2b; x04; x75; x5a; xf2; xdd; xac; x83; x4e; x61; x10; x3f; x5d; x72; x03; x2c; xe1; xce; xbf; x90; x38; x17; x66; x49; x84; xab; xda; xf5; x11; x3e; x4f; x60; xad; x82; xf3; xdc; x74; x5b; x2a; x05; xc8; xe7; x96; xb9; xdb; xf4; x85; xaa; x67; x48; x39; x16; xbe; x91; xe0; xcf; x02; x2d; x5c; x73; x98; xb7; xc6; xe9; x24; x0b; x7a; x55; xfd; xd2; xa3; x8c; x41; x6e; x1f; x30; x52; x7d; x0c; x23; xee; xc1; xb0; x9f; x37; x18; x69; x46; x8b; xa4; xd5; xfa];
   [x00; x30; x60; x50; xc0; xf0; xa0; x90; x9d; xad; xfd; xcd; x5d; x6d; x3d; x0d; x27; x17; x47; x77; xe7; xd7; x87; xb7; xba; x8a; xda; xea; x7a; x4a; x1a; x2a; x4e; x7e; x2e; x1e; x8e; xbe; xee; xde; xd3; xe3; xb3; x83; x13; x23; x73; x43; x69; x59; x09; x39; xa9; x99; xc9; xf9; xf4; xc4; x94; xa4; x34; x04; x54; x64; x9c; xac; xfc; xcc; x5c; x6c; x3c; x0c; x01; x31; x61; x51; xc1; xf1; xa1; x91; xbb; x8b; xdb; xeb; x7b; x4b; x1b; x2b; x26; x16; x46; x76; xe6; xd6; x86; xb6; xd2; xe2; xb2; x82; x12; x22; x72; x42; x4f; x7f; x2f; x1f; x8f; xbf; xef; xdf; xf5; xc5; x95; xa5; x35; x05; x55; x65; x68; x58; x08; x38; xa8; x98; xc8; xf8; x25; x15; x45; x75; xe5; xd5; x85; xb5; xb8; x88; xd8; xe8; x78; x48; x18; x28; x02; x32; x62; x52; xc2; xf2; xa2; x92; x9f; xaf; xff; xcf; x5f; x6f; x3f; x0f; x6b; x5b; x0b; x3b; xab; x9b; xcb; xfb; xf6; xc6; x96; xa6; x36; x06; x56; x66; x4c; x7c; x2c; x1c; x8c; xbc; xec; xdc; xd1; xe1; xb1; x81; x11; x21; x71; x41; xb9; x89; xd9; xe9; x79; x49; x19; x29; x24; x14; x44; x74; xe4; xd4; x84; xb4; x9e; xae; xfe; xce; x5e; x6e; x3e; x0e; x03; x33; x63; x53; xc3; xf3; xa3; x93; xf7; xc7; x97; xa7; x37; x07; x57; x67; x6a; x5a; x0a; x3a; xaa; x9a; xca; xfa; xd0; xe0; xb0; x80; x10; x20; x70; x40; x4d; x7d; x2d; x1d; x8d; xbd; xed; xdd];
   [x00; x31; x62; x53; xc4; xf5; xa6; x97; x95; xa4; xf7; xc6; x51; x60; x33; x02; x37; x06; x55; x64; xf3; xc2; x91; xa0; xa2; x93; xc0; xf1; x66; x57; x04; x35; x6e; x5f; x0c; x3d; xaa; x9b; xc8; xf9; xfb; xca; x99; xa8; x3f; x0e; x5d; x6c; x59; x68; x3b; x0a; x9d; xac; xff; xce; xcc; xfd; xae; x9f; x08; x39; x6a; x5b; xdc; xed; xbe; x8f; x18; x29; x7a; x4b; x49; x78; x2b; x1a; x8d; xbc; xef; xde; xeb; xda; x89; xb8; x2f; x1e; x4d; x7c; x7e; x4f; x1c; x2d; xba; x8b; xd8; xe9; xb2; x83; xd0; xe1; x76; x47; x14; x25; x27; x16; x45; x74; xe3; xd2; x81; xb0; x85; xb4; xe7; xd6; x41; x70; x23; x12; x10; x21; x72; x43; xd4; xe5; xb6; x87; xa5; x94; xc7; xf6; x61; x50; x03; x32; x30; x01; x52; x63; xf4; xc5; x96; xa7; x92; xa3; xf0; xc1; x56; x67; x34; x05; x07; x36; x65; x54; xc3; xf2; xa1; x90; xcb; xfa; xa9; x98; x0f; x3e; x6d; x5c; x5e; x6f; x3c; x0d; x9a; xab; xf8; xc9; xfc; xcd; x9e; xaf; x38; x09; x5a; x6b; x69; x58; x0b; x3a; xad; x9c; xcf; xfe; x79; x48; x1b; x2a; xbd; x8c; xdf; xee; xec; xdd; x8e; xbf; x28; x19; x4a; x7b; x4e; x7f; x2c; x1d; x8a; xbb; xe8; xd9; xdb; xea; xb9; x88; x1f; x2e; x7d; x4c; x17; x26; x75; x44; xd3; xe2; xb1; x80; x82; xb3; xe0; xd1; x46; x77; x24; x15; x20; x11; x42; x73; xe4; xd5; x86; xb7; xb5; x84; xd7; xe6; x71; x40; x13; x22];
   [x00; x32; x64; x56; xc8; xfa; xac; x9e; x8d; xbf; xe9; xdb; x45; x77; x21; x13; x07; x35; x63; x51; xcf; xfd; xab; x99; x8a; xb8; xee; xdc; x42; x70; x26; x14; x0e; x3c; x6a; x58; xc6; xf4; xa2; x90; x83; xb1; xe7; xd5; x4b; x79; x2f; x1d; x09; x3b; x6d; x5f; xc1; xf3; xa5; x97; x84; xb6; xe0; xd2; x4c; x7e; x28; x1a; x1c; x2e; x78; x4a; xd4; xe6; xb0; x82; x91; xa3; xf5; xc7; x59; x6b; x3d; x0f; x1b; x29; x7f; x4d; xd3; xe1; xb7; x85; x96; xa4; xf2; xc0; x5e; x6c; x3a; x08; x12; x20; x76; x44; xda; xe8; xbe; x8c; x9f; xad; xfb; xc9; x57; x65; x33; x01; x15; x27; x71; x43; xdd; xef; xb9; x8b; x98; xaa; xfc; xce; x50; x62; x34; x06; x38; x0a; x5c; x6e; xf0; xc2; x94; xa6; xb5; x87; xd1; xe3; x7d; x4f; x19; x2b; x3f; x0d; x5b; x69; xf7; xc5; x93; xa1; xb2; x80; xd6; xe4; x7a; x48; x1e; x2c; x36; x04; x52; x60; xfe; xcc; x9a; xa8; xbb; x89; xdf; xed; x73; x41; x17; x25; x31; x03; x55; x67; xf9; xcb; x9d; xaf; xbc; x8e; xd8; xea; x74; x46; x10; x22; x24; x16; x40; x72; xec; xde; x88; xba; xa9; x9b; xcd; xff; x61; x53; x05; x37; x23; x11; x47; x75; xeb; xd9; x8f; xbd; xae; x9c; xca; xf8; x66; x54; x02; x30; x2a; x18; x4e; x7c; xe2; xd0; x86; xb4; xa7; x95; xc3; xf1; x6f; x5d; x0b; x39; x2d; x1f; x49; x7b; xe5; xd7; x81; xb3; xa0; x92; xc4; xf6; x68; x5a; x0c; x3e];
   [x00; x33; x66; x55; xcc; xff; xaa; x99; x85; xb6; xe3; xd0; x49; x7a; x2f; x1c; x17; x24; x71; x42; xdb; xe8; xbd; x8e; x92; xa1; xf4; xc7; x5e; x6d; x38; x0b; x2e; x1d; x48; x7b; xe2; xd1; x84; xb7; xab; x98; xcd; xfe; x67; x54; x01; x32; x39; x0a; x5f; x6c; xf5; xc6; x93; xa0; xbc; x8f; xda; xe9; x70; x43; x16; x25; x5c; x6f; x3a; x09; x90; xa3; xf6; xc5; xd9; xea; xbf; x8c; x15; x26; x73; x40; x4b; x78; x2d; x1e; x87; xb4; xe1; xd2; xce; xfd; xa8; x9b; x02; x31; x64; x57; x72; x41; x14; x27; xbe; x8d; xd8; xeb; xf7; xc4; x91; xa2; x3b; x08; x5d; x6e; x65; x56; x03; x30; xa9; x9a; xcf; xfc; xe0; xd3; x86; xb5; x2c; x1f; x4a; x79; xb8; x8b; xde; xed; x74; x47; x12; x21; x3d; x0e; x5b; x68; xf1; xc2; x97; xa4; xaf; x9c; xc9; xfa; x63; x50; x05; x36; x2a; x19; x4c; x7f; xe6; xd5; x80; xb3; x96; xa5; xf0; xc3; x5a; x69; x3c; x0f; x13; x20; x75; x46; xdf; xec; xb9; x8a; x81; xb2; xe7; xd4; x4d; x7e; x2b; x18; x04; x37; x62; x51; xc8; xfb; xae; x9d; xe4; xd7; x82; xb1; x28; x1b; x4e; x7d; x61; x52; x07; x34; xad; x9e; xcb; xf8; xf3; xc0; x95; xa6; x3f; x0c; x59; x6a; x76; x45; x10; x23; xba; x89; xdc; xef; xca; xf9; xac; x9f; x06; x35; x60; x53; x4f; x7c; x29; x1a; x83; xb0; xe5; xd6; xdd; xee; xbb; x88; x11; x22; x77; x44; x58; x6b; x3e; x0d; x94; xa7; xf2; xc1];
   [x00; x34; x68; x5c; xd0; xe4; xb8; x8c; xbd; x89; xd5; xe1; x6d; x59; x05; x31; x67; x53; x0f; x3b; xb7; x83; xdf; xeb; xda; xee; xb2; x86; x0a; x3e; x62; x56; xce; xfa; xa6; x92; x1e; x2a; x76; x42; x73; x47; x1b; x2f; xa3; x97; xcb; xff; xa9; x9d; xc1; xf5; x79; x4d; x11; x25; x14; x20; x7c; x48; xc4; xf0; xac; x98; x81; xb5; xe9; xdd; x51; x65; x39; x0d; x3c; x08; x54; x60; xec; xd8; x84; xb0; xe6; xd2; x8e; xba; x36; x02; x5e; x6a; x5b; x6f; x33; x07; x8b; xbf; xe3; xd7; x4f; x7b; x27; x13; x9f; xab; xf7; xc3; xf2; xc6; x9a; xae; x22; x16; x4a; x7e; x28; x1c; x40; x74; xf8; xcc; x90; xa4; x95; xa1; xfd; xc9; x45; x71; x2d; x19; x1f; x2b; x77; x43; xcf; xfb; xa7; x93; xa2; x96; xca; xfe; x72; x46; x1a; x2e; x78; x4c; x10; x24; xa8; x9c; xc0; xf4; xc5; xf1; xad; x99; x15; x21; x7d; x49; xd1; xe5; xb9; x8d; x01; x35; x69; x5d; x6c; x58; x04; x30; xbc; x88; xd4; xe0; xb6; x82; xde; xea; x66; x52; x0e; x3a; x0b; x3f; x63; x57; xdb; xef; xb3; x87; x9e; xaa; xf6; xc2; x4e; x7a; x26; x12; x23; x17; x4b; x7f; xf3; xc7; x9b; xaf; xf9; xcd; x91; xa5; x29; x1d; x41; x75; x44; x70; x2c; x18; x94; xa0; xfc; xc8; x50; x64; x38; x0c; x80; xb4; xe8; xdc; xed; xd9; x85; xb1; x3d; x09; x55; x61; x37; x03; x5f; x6b; xe7; xd3; x8f; xbb; x8a; xbe; xe2; xd6; x5a; x6e; x32; x06];
   [x00; x35; x6a; x5f; xd4; xe1; xbe; x8b; xb5; x80; xdf; xea; x61; x54; x0b; x3e; x77; x42; x1d; x28; xa3; x96; xc9; xfc; xc2; xf7; xa8; x9d; x16; x23; x7c; x49; xee; xdb; x84; xb1; x3a; x0f; x50; x65; x5b; x6e; x31; x04; x8f; xba; xe5; xd0; x99; xac; xf3; xc6; x4d; x78; x27; x12; x2c; x19; x46; x73; xf8; xcd; x92; xa7; xc1; xf4; xab; x9e; x15; x20; x7f; x4a; x74; x41; x1e; x2b; xa0; x95; xca; xff; xb6; x83; xdc; xe9; x62; x57; x08; x3d; x03; x36; x69; x5c; xd7; xe2; xbd; x88; x2f; x1a; x45; x70; xfb; xce; x91; xa4; x9a; xaf; xf0; xc5; x4e; x7b; x24; x11; x58; x6d; x32; x07; x8c; xb9; xe6; xd3; xed; xd8; x87; xb2; x39; x0c; x53; x66; x9f; xaa; xf5; xc0; x4b; x7e; x21; x14; x2a; x1f; x40; x75; xfe; xcb; x94; xa1; xe8; xdd; x82; xb7; x3c; x09; x56; x63; x5d; x68; x37; x02; x89; xbc; xe3; xd6; x71; x44; x1b; x2e; xa5; x90; xcf; xfa; xc4; xf1; xae; x9b; x10; x25; x7a; x4f; x06; x33; x6c; x59; xd2; xe7; xb8; x8d; xb3; x86; xd9; xec; x67; x52; x0d; x38; x5e; x6b; x34; x01; x8a; xbf; xe0; xd5; xeb; xde; x81; xb4; x3f; x0a; x55; x60; x29; x1c; x43; x76; xfd; xc8; x97; xa2; x9c; xa9; xf6; xc3; x48; x7d; x22; x17; xb0; x85; xda; xef; x64; x51; x0e; x3b; x05; x30; x6f; x5a; xd1; xe4; xbb; x8e; xc7; xf2; xad; x98; x13; x26; x79; x4c; x72; x47; x18; x2d; xa6; x93; xcc; xf9];
   [x00; x36; x6c; x5a; xd8; xee; xb4; x82; xad; x9b; xc1; xf7; x75; x43; x19; x2f; x47; x71; x2b; x1d; x9f; xa9; xf3; xc5; xea; xdc; x86; xb0; x32; x04; x5e; x68; x8e; xb8; xe2; xd4; x56; x60; x3a; x0c; x23; x15; x4f; x79; xfb; xcd; x97; xa1; xc9; xff; xa5; x93; x11; x27; x7d; x4b; x64; x52; x08; x3e; xbc; x8a; xd0; xe6; x01; x37; x6d; x5b; xd9; xef; xb5; x83; xac; x9a; xc0; xf6; x74; x42; x18; x2e; x46; x70; x2a; x1c; x9e; xa8; xf2; xc4; xeb; xdd; x87; xb1; x33; x05; x5f; x69; x8f; xb9; xe3; xd5; x57; x61; x3b; x0d; x22; x14; x4e; x78; xfa; xcc; x96; xa0; xc8; xfe; xa4; x92; x10; x26; x7c; x4a; x65; x53; x09; x3f; xbd; x8b; xd1; xe7; x02; x34; x6e; x58; xda; xec; xb6; x80; xaf; x99; xc3; xf5; x77; x41; x1b; x2d; x45; x73; x29; x1f; x9d; xab; xf1; xc7; xe8; xde; x84; xb2; x30; x06; x5c; x6a; x8c; xba; xe0; xd6; x54; x62; x38; x0e; x21; x17; x4d; x7b; xf9; xcf; x95; xa3; xcb; xfd; xa7; x91; x13; x25; x7f; x49; x66; x50; x0a; x3c; xbe; x88; xd2; xe4; x03; x35; x6f; x59; xdb; xed; xb7; x81; xae; x98; xc2; xf4; x76; x40; x1a; x2c; x44; x72; x28; x1e; x9c; xaa; xf0; xc6; xe9; xdf; x85; xb3; x31; x07; x5d; x6b; x8d; xbb; xe1; xd7; x55; x63; x39; x0f; x20; x16; x4c; x7a; xf8; xce; x94; xa2; xca; xfc; xa6; x90; x12; x24; x7e; x48; x67; x51; x0b; x3d; xbf; x89; xd3; xe5];
   [x00; x37; x6e; x59; xdc; xeb; xb2; x85; xa5; x92; xcb; xfc; x79; x4e; x17; x20; x57; x60; x39; x0e; x8b; xbc; xe5; xd2; xf2; xc5; x9c; xab; x2e; x19; x40; x77; xae; x99; xc0; xf7; x72; x45; x1c; x2b; x0b; x3c; x65; x52; xd7; xe0; xb9; x8e; xf9; xce; x97; xa0; x25; x12; x4b; x7c; x5c; x6b; x32; x05; x80; xb7; xee; xd9; x41; x76; x2f; x18; x9d; xaa; xf3; xc4; xe4; xd3; x8a; xbd; x38; x0f; x56; x61; x16; x21; x78; x4f; xca; xfd; xa4; x93; xb3; x84; xdd; xea; x6f; x58; x01; x36; xef; xd8; x81; xb6; x33; x04; x5d; x6a; x4a; x7d; x24; x13; x96; xa1; xf8; xcf; xb8; x8f; xd6; xe1; x64; x53; x0a; x3d; x1d; x2a; x73; x44; xc1; xf6; xaf; x98; x82; xb5; xec; xdb; x5e; x69; x30; x07; x27; x10; x49; x7e; xfb; xcc; x95; xa2; xd5; xe2; xbb; x8c; x09; x3e; x67; x50; x70; x47; x1e; x29; xac; x9b; xc2; xf5; x2c; x1b; x42; x75; xf0; xc7; x9e; xa9; x89; xbe; xe7; xd0; x55; x62; x3b; x0c; x7b; x4c; x15; x22; xa7; x90; xc9; xfe; xde; xe9; xb0; x87; x02; x35; x6c; x5b; xc3; xf4; xad; x9a; x1f; x28; x71; x46; x66; x51; x08; x3f; xba; x8d; xd4; xe3; x94; xa3; xfa; xcd; x48; x7f; x26; x11; x31; x06; x5f; x68; xed; xda; x83; xb4; x6d; x5a; x03; x34; xb1; x86; xdf; xe8; xc8; xff; xa6; x91; x14; x23; x7a; x4d; x3a; x0d; x54; x63; xe6; xd1; x88; xbf; x9f; xa8; xf1; xc6; x43; x74; x2d; x1a];
   [x00; x38; x70; x48; xe0; xd8; x90; xa8; xdd; xe5; xad; x95; x3d; x05; x4d; x75; xa7; x9f; xd7; xef; x47; x7f; x37; x0f; x7a; x42; x0a; x32; x9a; xa2; xea; xd2; x53; x6b; x23; x1b; xb3; x8b; xc3; xfb; x8e; xb6; xfe; xc6; x6e; x56; x1e; x26; xf4; xcc; x84; xbc; x14; x2c; x64; x5c; x29; x11; x59; x61; xc9; xf1; xb9; x81; xa6; x9e; xd6; xee; x46; x7e; x36; x0e; x7b; x43; x0b; x33; x9b; xa3; xeb; xd3; x01; x39; x71; x49; xe1; xd9; x91; xa9; xdc; xe4; xac; x94; x3c; x04; x4c; x74; xf5; xcd; x85; xbd; x15; x2d; x65; x5d; x28; x10; x58; x60; xc8; xf0; xb8; x80; x52; x6a; x22; x1a; xb2; x8a; xc2; xfa; x8f; xb7; xff; xc7; x6f; x57; x1f; x27; x51; x69; x21; x19; xb1; x89; xc1; xf9; x8c; xb4; xfc; xc4; x6c; x54; x1c; x24; xf6; xce; x86; xbe; x16; x2e; x66; x5e; x2b; x13; x5b; x63; xcb; xf3; xbb; x83; x02; x3a; x72; x4a; xe2; xda; x92; xaa; xdf; xe7; xaf; x97; x3f; x07; x4f; x77; xa5; x9d; xd5; xed; x45; x7d; x35; x0d; x78; x40; x08; x30; x98; xa0; xe8; xd0; xf7; xcf; x87; xbf; x17; x2f; x67; x5f; x2a; x12; x5a; x62; xca; xf2; xba; x82; x50; x68; x20; x18; xb0; x88; xc0; xf8; x8d; xb5; xfd; xc5; x6d; x55; x1d; x25; xa4; x9c; xd4; xec; x44; x7c; x34; x0c; x79; x41; x09; x31; x99; xa1; xe9; xd1; x03; x3b; x73; x4b; xe3; xdb; x93; xab; xde; xe6; xae; x96; x3e; x06; x4e; x76];
   [x00; x39; x72; x4b; xe4; xdd; x96; xaf; xd5; xec; xa7; x9e; x31; x08; x43; x7a; xb7; x8e; xc5; xfc; x53; x6a; x21; x18; x62; x5b; x10; x29; x86; xbf; xf4; xcd; x73; x4a; x01; x38; x97; xae; xe5; xdc; xa6; x9f; xd4; xed; x42; x7b; x30; x09; xc4; xfd; xb6; x8f; x20; x19; x52; x6b; x11; x28; x63; x5a; xf5; xcc; x87; xbe; xe6; xdf; x94; xad; x02; x3b; x70; x49; x33; x0a; x41; x78; xd7; xee; xa5; x9c; x51; x68; x23; x1a; xb5; x8c; xc7; xfe; x84; xbd; xf6; xcf; x60; x59; x12; x2b; x95; xac; xe7; xde; x71; x48; x03; x3a; x40; x79; x32; x0b; xa4; x9d; xd6; xef; x22; x1b; x50; x69; xc6; xff; xb4; x8d; xf7; xce; x85; xbc; x13; x2a; x61; x58; xd1; xe8; xa3; x9a; x35; x0c; x47; x7e; x04; x3d; x76; x4f; xe0; xd9; x92; xab; x66; x5f; x14; x2d; x82; xbb; xf0; xc9; xb3; x8a; xc1; xf8; x57; x6e; x25; x1c; xa2; x9b; xd0; xe9; x46; x7f; x34; x0d; x77; x4e; x05; x3c; x93; xaa; xe1; xd8; x15; x2c; x67; x5e; xf1; xc8; x83; xba; xc0; xf9; xb2; x8b; x24; x1d; x56; x6f; x37; x0e; x45; x7c; xd3; xea; xa1; x98; xe2; xdb; x90; xa9; x06; x3f; x74; x4d; x80; xb9; xf2; xcb; x64; x5d; x16; x2f; x55; x6c; x27; x1e; xb1; x88; xc3; xfa; x44; x7d; x36; x0f; xa0; x99; xd2; xeb; x91; xa8; xe3; xda; x75; x4c; x07; x3e; xf3; xca; x81; xb8; x17; x2e; x65; x5c; x26; x1f; x54; x6d; xc2; xfb; xb0; x89];
   [x00; x3a; x74; x4e; xe8; xd2; x9c; xa6; xcd; xf7; xb9; x83; x25; x1f; x51; x6b; x87; xbd; xf3; xc9; x6f; x55; x1b; x21; x4a; x70; x3e; x04; xa2; x98; xd6; xec; x13; x29; x67; x5d; xfb; xc1; x8f; xb5; xde; xe4; xaa; x90; x36; x0c; x42; x78; x94; xae; xe0; xda; x7c; x46; x08; x32; x59; x63; x2d; x17; xb1; x8b; xc5; xff; x26; x1c; x52; x68; xce; xf4; xba; x80; xeb; xd1; x9f; xa5; x03; x39; x77; x4d; xa1; x9b; xd5; xef; x49; x73; x3d; x07; x6c; x56; x18; x22; x84; xbe; xf0; xca; x35; x0f; x41; x7b; xdd; xe7; xa9; x93; xf8; xc2; x8c; xb6; x10; x2a; x64; x5e; xb2; x88; xc6; xfc; x5a; x60; x2e; x14; x7f; x45; x0b; x31; x97; xad; xe3; xd9; x4c; x76; x38; x02; xa4; x9e; xd0; xea; x81; xbb; xf5; xcf; x69; x53; x1d; x27; xcb; xf1; xbf; x85; x23; x19; x57; x6d; x06; x3c; x72; x48; xee; xd4; x9a; xa0; x5f; x65; x2b; x11; xb7; x8d; xc3; xf9; x92; xa8; xe6; xdc; x7a; x40; x0e; x34; xd8; xe2; xac; x96; x30; x0a; x44; x7e; x15; x2f; x61; x5b; xfd; xc7; x89; xb3; x6a; x50; x1e; x24; x82; xb8; xf6; xcc; xa7; x9d; xd3; xe9; x4f; x75; x3b; x01; xed; xd7; x99; xa3; x05; x3f; x71; x4b; x20; x1a; x54; x6e; xc8; xf2; xbc; x86; x79; x43; x0d; x37; x91; xab; xe5; xdf; xb4; x8e; xc0; xfa; x5c; x66; x28; x12; xfe; xc4; x8a; xb0; x16; x2c; x62; x58; x33; x09; x47; x7d; xdb; xe1; xaf; x95];
   [x00; x3b; x76; x4d; xec; xd7; x9a; xa1; xc5; xfe; xb3; x88; x29; x12; x5f; x64; x97; xac; xe1; xda; x7b; x40; x0d; x36; x52; x69; x24; x1f; xbe; x85; xc8; xf3; x33; x08; x45; x7e; xdf; xe4; xa9; x92; xf6; xcd; x80; xbb; x1a; x21; x6c; x57; xa4; x9f; xd2; xe9; x48; x73; x3e; x05; x61; x5a; x17; x2c; x8d; xb6; xfb; xc0; x66; x5d; x10; x2b; x8a; xb1; xfc; xc7; xa3; x98; xd5; xee; x4f; x74; x39; x02; xf1; xca; x87; xbc; x1d; x26; x6b; x50; x34; x0f; x42; x79; xd8; xe3; xae; x95; x55; x6e; x23; x18; xb9; x82; xcf; xf4; x90; xab; xe6; xdd; x7c; x47; x0a; x31; xc2; xf9; xb4; x8f; x2e; x15; x58; x63; x07; x3c; x71; x4a; xeb; xd0; x9d; xa6; xcc; xf7; xba; x81; x20; x1b; x56; x6d; x09; x32; x7f; x44; xe5; xde; x93; xa8; x5b; x60; x2d; x16; xb7; x8c; xc1; xfa; x9e; xa5; xe8; xd3; x72; x49; x04; x3f; xff; xc4; x89; xb2; x13; x28; x65; x5e; x3a; x01; x4c; x77; xd6; xed; xa0; x9b; x68; x53; x1e; x25; x84; xbf; xf2; xc9; xad; x96; xdb; xe0; x41; x7a; x37; x0c; xaa; x91; xdc; xe7; x46; x7d; x30; x0b; x6f; x54; x19; x22; x83; xb8; xf5; xce; x3d; x06; x4b; x70; xd1; xea; xa7; x9c; xf8; xc3; x8e; xb5; x14; x2f; x62; x59; x99; xa2; xef; xd4; x75; x4e; x03; x38; x5c; x67; x2a; x11; xb0; x8b; xc6; xfd; x0e; x35; x78; x43; xe2; xd9; x94; xaf; xcb; xf0; xbd; x86; x27; x1c; x51; x6a];
   [x00; x3c; x78; x44; xf0; xcc; x88; xb4; xfd; xc1; x85; xb9; x0d; x31; x75; x49; xe7; xdb; x9f; xa3; x17; x2b; x6f; x53; x1a; x26; x62; x5e; xea; xd6; x92; xae; xd3; xef; xab; x97; x23; x1f; x5b; x67; x2e; x12; x56; x6a; xde; xe2; xa6; x9a; x34; x08; x4c; x70; xc4; xf8; xbc; x80; xc9; xf5; xb1; x8d; x39; x05; x41; x7d; xbb; x87; xc3; xff; x4b; x77; x33; x0f; x46; x7a; x3e; x02; xb6; x8a; xce; xf2; x5c; x60; x24; x18; xac; x90; xd4; xe8; xa1; x9d; xd9; xe5; x51; x6d; x29; x15; x68; x54; x10; x2c; x98; xa4; xe0; xdc; x95; xa9; xed; xd1; x65; x59; x1d; x21; x8f; xb3; xf7; xcb; x7f; x43; x07; x3b; x72; x4e; x0a; x36; x82; xbe; xfa; xc6; x6b; x57; x13; x2f; x9b; xa7; xe3; xdf; x96; xaa; xee; xd2; x66; x5a; x1e; x22; x8c; xb0; xf4; xc8; x7c; x40; x04; x38; x71; x4d; x09; x35; x81; xbd; xf9; xc5; xb8; x84; xc0; xfc; x48; x74; x30; x0c; x45; x79; x3d; x01; xb5; x89; xcd; xf1; x5f; x63; x27; x1b; xaf; x93; xd7; xeb; xa2; x9e; xda; xe6; x52; x6e; x2a; x16; xd0; xec; xa8; x94; x20; x1c; x58; x64; x2d; x11; x55; x69; xdd; xe1; xa5; x99; x37; x0b; x4f; x73; xc7; xfb; xbf; x83; xca; xf6; xb2; x8e; x3a; x06; x42; x7e; x03; x3f; x7b; x47; xf3; xcf; x8b; xb7; xfe; xc2; x86; xba; x0e; x32; x76; x4a; xe4; xd8; x9c; xa0; x14; x28; x6c; x50; x19; x25; x61; x5d; xe9; xd5; x91; xad];
   [x00; x3d; x7a; x47; xf4; xc9; x8e; xb3; xf5; xc8; x8f; xb2; x01; x3c; x7b; x46; xf7; xca; x8d; xb0; x03; x3e; x79; x44; x02; x3f; x78; x45; xf6; xcb; x8c; xb1; xf3; xce; x89; xb4; x07; x3a; x7d; x40; x06; x3b; x7c; x41; xf2; xcf; x88; xb5; x04; x39; x7e; x43; xf0; xcd; x8a; xb7; xf1; xcc; x8b; xb6; x05; x38; x7f; x42; xfb; xc6; x81; xbc; x0f; x32; x75; x48; x0e; x33; x74; x49; xfa; xc7; x80; xbd; x0c; x31; x76; x4b; xf8; xc5; x82; xbf; xf9; xc4; x83; xbe; x0d; x30; x77; x4a; x08; x35; x72; x4f; xfc; xc1; x86; xbb; xfd; xc0; x87; xba; x09; x34; x73; x4e; xff; xc2; x85; xb8; x0b; x36; x71; x4c; x0a; x37; x70; x4d; xfe; xc3; x84; xb9; xeb; xd6; x91; xac; x1f; x22; x65; x58; x1e; x23; x64; x59; xea; xd7; x90; xad; x1c; x21; x66; x5b; xe8; xd5; x92; xaf; xe9; xd4; x93; xae; x1d; x20; x67; x5a; x18; x25; x62; x5f; xec; xd1; x96; xab; xed; xd0; x97; xaa; x19; x24; x63; x5e; xef; xd2; x95; xa8; x1b; x26; x61; x5c; x1a; x27; x60; x5d; xee; xd3; x94; xa9; x10; x2d; x6a; x57; xe4; xd9; x9e; xa3; xe5; xd8; x9f; xa2; x11; x2c; x6b; x56; xe7; xda; x9d; xa0; x13; x2e; x69; x54; x12; x2f; x68; x55; xe6; xdb; x9c; xa1; xe3; xde; x99; xa4; x17; x2a; x6d; x50; x16; x2b; x6c; x51; xe2; xdf; x98; xa5; x14; x29; x6e; x53; xe0; xdd; x9a; xa7; xe1; xdc; x9b; xa6; x15; x28; x6f; x52];
   [x00; x3e; x7c; x42; xf8; xc6; x84; xba; xed; xd3; x91; xaf; x15; x2b; x69; x57; xc7; xf9; xbb; x85; x3f; x01; x43; x7d; x2a; x14; x56; x68; xd2; xec; xae; x90; x93; xad; xef; xd1; x6b; x55; x17; x29; x7e; x40; x02; x3c; x86; xb8; xfa; xc4; x54; x6a; x28; x16; xac; x92; xd0; xee; xb9; x87; xc5; xfb; x41; x7f; x3d; x03; x3b; x05; x47; x79; xc3; xfd; xbf; x81; xd6; xe8; xaa; x94; x2e; x10; x52; x6c; xfc; xc2; x80; xbe; x04; x3a; x78; x46; x11; x2f; x6d; x53; xe9; xd7; x95; xab; xa8; x96; xd4; xea; x50; x6e; x2c; x12; x45; x7b; x39; x07; xbd; x83; xc1; xff; x6f; x51; x13; x2d; x97; xa9; xeb; xd5; x82; xbc; xfe; xc0; x7a; x44; x06; x38; x76; x48; x0a; x34; x8e; xb0; xf2; xcc; x9b; xa5; xe7; xd9; x63; x5d; x1f; x21; xb1; x8f; xcd; xf3; x49; x77; x35; x0b; x5c; x62; x20; x1e; xa4; x9a; xd8; xe6; xe5; xdb; x99; xa7; x1d; x23; x61; x5f; x08; x36; x74; x4a; xf0; xce; x8c; xb2; x22; x1c; x5e; x60; xda; xe4; xa6; x98; xcf; xf1; xb3; x8d; x37; x09; x4b; x75; x4d; x73; x31; x0f; xb5; x8b; xc9; xf7; xa0; x9e; xdc; xe2; x58; x66; x24; x1a; x8a; xb4; xf6; xc8; x72; x4c; x0e; x30; x67; x59; x1b; x25; x9f; xa1; xe3; xdd; xde; xe0; xa2; x9c; x26; x18; x5a; x64; x33; x0d; x4f; x71; xcb; xf5; xb7; x89; x19; x27; x65; x5b; xe1; xdf; x9d; xa3; xf4; xca; x88; xb6; x0c; x32; x70; x4e];
   [x00; x3f; x7e; x41; xfc; xc3; x82; xbd; xe5; xda; x9b; xa4; x19; x26; x67; x58; xd7; xe8; xa9; x96; x2b; x14; x55; x6a; x32; x0d; x4c; x73; xce; xf1; xb0; x8f; xb3; x8c; xcd; xf2; x4f; x70; x31; x0e; x56; x69; x28; x17; xaa; x95; xd4; xeb; x64; x5b; x1a; x25; x98; xa7; xe6; xd9; x81; xbe; xff; xc0; x7d; x42; x03; x3c; x7b; x44; x05; x3a; x87; xb8; xf9; xc6; x9e; xa1; xe0; xdf; x62; x5d; x1c; x23; xac; x93; xd2; xed; x50; x6f; x2e; x11; x49; x76; x37; x08; xb5; x8a; xcb; xf4; xc8; xf7; xb6; x89; x34; x0b; x4a; x75; x2d; x12; x53; x6c; xd1; xee; xaf; x90; x1f; x20; x61; x5e; xe3; xdc; x9d; xa2; xfa; xc5; x84; xbb; x06; x39; x78; x47; xf6; xc9; x88; xb7; x0a; x35; x74; x4b; x13; x2c; x6d; x52; xef; xd0; x91; xae; x21; x1e; x5f; x60; xdd; xe2; xa3; x9c; xc4; xfb; xba; x85; x38; x07; x46; x79; x45; x7a; x3b; x04; xb9; x86; xc7; xf8; xa0; x9f; xde; xe1; x5c; x63; x22; x1d; x92; xad; xec; xd3; x6e; x51; x10; x2f; x77; x48; x09; x36; x8b; xb4; xf5; xca; x8d; xb2; xf3; xcc; x71; x4e; x0f; x30; x68; x57; x16; x29; x94; xab; xea; xd5; x5a; x65; x24; x1b; xa6; x99; xd8; xe7; xbf; x80; xc1; xfe; x43; x7c; x3d; x02; x3e; x01; x40; x7f; xc2; xfd; xbc; x83; xdb; xe4; xa5; x9a; x27; x18; x59; x66; xe9; xd6; x97; xa8; x15; x2a; x6b; x54; x0c; x33; x72; x4d; xf0; xcf; x8e; xb1];
   [x00; x40; x80; xc0; x1d; x5d; x9d; xdd; x3a; x7a; xba; xfa; x27; x67; xa7; xe7; x74; x34; xf4; xb4; x69; x29; xe9; xa9; x4e; x0e; xce; x8e; x53; x13; xd3; x93; xe8; xa8; x68; x28; xf5; xb5; x75; x35; xd2; x92; x52; x12; xcf; x8f; x4f; x0f; x9c; xdc; x1c; x5c; x81; xc1; x01; x41; xa6; xe6; x26; x66; xbb; xfb; x3b; x7b; xcd; x8d; x4d; x0d; xd0; x90; x50; x10; xf7; xb7; x77; x37; xea; xaa; x6a; x2a; xb9; xf9; x39; x79; xa4; xe4; x24; x64; x83; xc3; x03; x43; x9e; xde; x1e; x5e; x25; x65; xa5; xe5; x38; x78; xb8; xf8; x1f; x5f; x9f; xdf; x02; x42; x82; xc2; x51; x11; xd1; x91; x4c; x0c; xcc; x8c; x6b; x2b; xeb; xab; x76; x36; xf6; xb6; x87; xc7; x07; x47; x9a; xda; x1a; x5a; xbd; xfd; x3d; x7d; xa0; xe0; x20; x60; xf3; xb3; x73; x33; xee; xae; x6e; x2e; xc9; x89; x49; x09; xd4; x94; x54; x14; x6f; x2f; xef; xaf; x72; x32; xf2; xb2; x55; x15; xd5; x95; x48; x08; xc8; x88; x1b; x5b; x9b; xdb; x06; x46; x86; xc6; x21; x61; xa1; xe1; x3c; x7c; xbc; xfc; x4a; x0a; xca; x8a; x57; x17; xd7; x97; x70; x30; xf0; xb0; x6d; x2d; xed; xad; x3e; x7e; xbe; xfe; x23; x63; xa3; xe3; x04; x44; x84; xc4; x19; x59; x99; xd9; xa2; xe2; x22; x62; xbf; xff; x3f; x7f; x98; xd8; x18; x58; x85; xc5; x05; x45; xd6; x96; x56; x16; xcb; x8b; x4b; x0b; xec; xac; x6c; x2c; xf1; xb1; x71; x31];
   [x00; x41; x82; xc3; x19; x58; x9b; xda; x32; x73; xb0; xf1; x2b; x6a; xa9; xe8; x64; x25; xe6; xa7; x7d; x3c; xff; xbe; x56; x17; xd4; x95; x4f; x0e; xcd; x8c; xc8; x89; x4a; x0b; xd1; x90; x53; x12; xfa; xbb; x78; x39; xe3; xa2; x61; x20; xac; xed; x2e; x6f; xb5; xf4; x37; x76; x9e; xdf; x1c; x5d; x87; xc6; x05; x44; x8d; xcc; x0f; x4e; x94; xd5; x16; x57; xbf; xfe; x3d; x7c; xa6; xe7; x24; x65; xe9; xa8; x6b; x2a; xf0; xb1; x72; x33; xdb; x9a; x59; x18; xc2; x83; x40; x01; x45; x04; xc7; x86; x5c; x1d; xde; x9f; x77; x36; xf5; xb4; x6e; x2f; xec; xad; x21; x60; xa3; xe2; x38; x79; xba; xfb; x13; x52; x91; xd0; x0a; x4b; x88; xc9; x07; x46; x85; xc4; x1e; x5f; x9c; xdd; x35; x74; xb7; xf6; x2c; x6d; xae; xef; x63; x22; xe1; xa0; x7a; x3b; xf8; xb9; x51; x10; xd3; x92; x48; x09; xca; x8b; xcf; x8e; x4d; x0c; xd6; x97; x54; x15; xfd; xbc; x7f; x3e; xe4; xa5; x66; x27; xab; xea; x29; x68; xb2; xf3; x30; x71; x99; xd8; x1b; x5a; x80; xc1; x02; x43; x8a; xcb; x08; x49; x93; xd2; x11; x50; xb8; xf9; x3a; x7b; xa1; xe0; x23; x62; xee; xaf; x6c; x2d; xf7; xb6; x75; x34; xdc; x9d; x5e; x1f; xc5; x84; x47; x06; x42; x03; xc0; x81; x5b; x1a; xd9; x98; x70; x31; xf2; xb3; x69; x28; xeb; xaa; x26; x67; xa4; xe5; x3f; x7e; xbd; xfc; x14; x55; x96; xd7; x0d; x4c; x8f; xce];
   [x00; x42; x84; xc6; x15; x57; x91; xd3; x2a; x68; xae; xec; x3f; x7d; xbb; xf9; x54; x16; xd0; x92; x41; x03; xc5; x87; x7e; x3c; xfa; xb8; x6b; x29; xef; xad; xa8; xea; x2c; x6e; xbd; xff; x39; x7b; x82; xc0; x06; x44; x97; xd5; x13; x51; xfc; xbe; x78; x3a; xe9; xab; x6d; x2f; xd6; x94; x52; x10; xc3; x81; x47; x05; x4d; x0f; xc9; x8b; x58; x1a; xdc; x9e; x67; x25; xe3; xa1; x72; x30; xf6; xb4; x19; x5b; x9d; xdf; x0c; x4e; x88; xca; x33; x71; xb7; xf5; x26; x64; xa2; xe0; xe5; xa7; x61; x23; xf0; xb2; x74; x36; xcf; x8d; x4b; x09; xda; x98; x5e; x1c; xb1; xf3; x35; x77; xa4; xe6; x20; x62; x9b; xd9; x1f; x5d; x8e; xcc; x0a; x48; x9a; xd8; x1e; x5c; x8f; xcd; x0b; x49; xb0; xf2; x34; x76; xa5; xe7; x21; x63; xce; x8c; x4a; x08; xdb; x99; x5f; x1d; xe4; xa6; x60; x22; xf1; xb3; x75; x37; x32; x70; xb6; xf4; x27; x65; xa3; xe1; x18; x5a; x9c; xde; x0d; x4f; x89; xcb; x66; x24; xe2; xa0; x73; x31; xf7; xb5; x4c; x0e; xc8; x8a; x59; x1b; xdd; x9f; xd7; x95; x53; x11; xc2; x80; x46; x04; xfd; xbf; x79; x3b; xe8; xaa; x6c; x2e; x83; xc1; x07; x45; x96; xd4; x12; x50; xa9; xeb; x2d; x6f; xbc; xfe; x38; x7a; x7f; x3d; xfb; xb9; x6a; x28; xee; xac; x55; x17; xd1; x93; x40; x02; xc4; x86; x2b; x69; xaf; xed; x3e; x7c; xba; xf8; x01; x43; x85; xc7; x14; x56; x90; xd2];
   [x00; x43; x86; xc5; x11; x52; x97; xd4; x22; x61; xa4; xe7; x33; x70; xb5; xf6; x44; x07; xc2; x81; x55; x16; xd3; x90; x66; x25; xe0; xa3; x77; x34; xf1; xb2; x88; xcb; x0e; x4d; x99; xda; x1f; x5c; xaa; xe9; x2c; x6f; xbb; xf8; x3d; x7e; xcc; x8f; x4a; x09; xdd; x9e; x5b; x18; xee; xad; x68; x2b; xff; xbc; x79; x3a; x0d; x4e; x8b; xc8; x1c; x5f; x9a; xd9; x2f; x6c; xa9; xea; x3e; x7d; xb8; xfb; x49; x0a; xcf; x8c; x58; x1b; xde; x9d; x6b; x28; xed; xae; x7a; x39; xfc; xbf; x85; xc6; x03; x40; x94; xd7; x12; x51; xa7; xe4; x21; x62; xb6; xf5; x30; x73; xc1; x82; x47; x04; xd0; x93; x56; x15; xe3; xa0; x65; x26; xf2; xb1; x74; x37; x1a; x59; x9c; xdf; x0b; x48; x8d; xce; x38; x7b; xbe; xfd; x29; x6a; xaf; xec; x5e; x1d; xd8; x9b; x4f; x0c; xc9; x8a; x7c; x3f; xfa; xb9; x6d; x2e; xeb; xa8; x92; xd1; x14; x57; x83; xc0; x05; x46; xb0; xf3; x36; x75; xa1; xe2; x27; x64; xd6; x95; x50; x13; xc7; x84; x41; x02; xf4; xb7; x72; x31; xe5; xa6; x63; x20; x17; x54; x91; xd2; x06; x45; x80; xc3; x35; x76; xb3; xf0; x24; x67; xa2; xe1; x53; x10; xd5; x96; x42; x01; xc4; x87; x71; x32; xf7; xb4; x60; x23; xe6; xa5; x9f; xdc; x19; x5a; x8e; xcd; x08; x4b; xbd; xfe; x3b; x78; xac; xef; x2a; x69; xdb; x98; x5d; x1e; xca; x89; x4c; x0f; xf9; xba; x7f; x3c; xe8; xab; x6e; x2d];
   [x00; x44; x88; xcc; x0d; x49; x85; xc1; x1a; x5e; x92; xd6; x17; x53; x9f; xdb; x34; x70; xbc; xf8; x39; x7d; xb1; xf5; x2e; x6a; xa6; xe2; x23; x67; xab; xef; x68; x2c; xe0; xa4; x65; x21; xed; xa9; x72; x36; xfa; xbe; x7f; x3b; xf7; xb3; x5c; x18; xd4; x90; x51; x15; xd9; x9d; x46; x02; xce; x8a; x4b; x0f; xc3; x87; xd0; x94; x58; x1c; xdd; x99; x55; x11; xca; x8e; x42; x06; xc7; x83; x4f; x0b; xe4; xa0; x6c; x28; xe9; xad; x61; x25; xfe; xba; x76; x32; xf3; xb7; x7b; x3f; xb8; xfc; x30; x74; xb5; xf1; x3d; x79; xa2; xe6; x2a; x6e; xaf; xeb; x27; x63; x8c; xc8; x04; x40; x81; xc5; x09; x4d; x96; xd2; x1e; x5a; x9b; xdf; x13; x57; xbd; xf9; x35; x71; xb0; xf4; x38; x7c; xa7; xe3; x2f; x6b; xaa; xee; x22; x66; x89; xcd; x01; x45; x84; xc0; x0c; x48; x93; xd7; x1b; x5f; x9e; xda; x16; x52; xd5; x91; x5d; x19; xd8; x9c; x50; x14; xcf; x8b; x47; x03; xc2; x86; x4a; x0e; xe1; xa5; x69; x2d; xec; xa8; x64; x20; xfb; xbf; x73; x37; xf6; xb2; x7e; x3a; x6d; x29; xe5; xa1; x60; x24; xe8; xac; x77; x33; xff; xbb; x7a; x3e; xf2; xb6; x59; x1d; xd1; x95; x54; x10; xdc; x98; x43; x07; xcb; x8f; x4e; x0a; xc6; x82; x05; x41; x8d; xc9; x08; x4c; x80; xc4; x1f; x5b; x97; xd3; x12; x56; x9a; xde; x31; x75; xb9; xfd; x3c; x78; xb4; xf0; x2b; x6f; xa3; xe7; x26; x62; xae; xea];
   [x00; x45; x8a; xcf; x09; x4c; x83; xc6; x12; x57; x98; xdd; x1b; x5e; x91; xd4; x24; x61; xae; xeb; x2d; x68; xa7; xe2; x36; x73; xbc; xf9; x3f; x7a; xb5; xf0; x48; x0d; xc2; x87; x41; x04; xcb; x8e; x5a; x1f; xd0; x95; x53; x16; xd9; x9c; x6c; x29; xe6; xa3; x65; x20; xef; xaa; x7e; x3b; xf4; xb1; x77; x32; xfd; xb8; x90; xd5; x1a; x5f; x99; xdc; x13; x56; x82; xc7; x08; x4d; x8b; xce; x01; x44; xb4; xf1; x3e; x7b; xbd; xf8; x37; x72; xa6; xe3; x2c; x69; xaf; xea; x25; x60; xd8; x9d; x52; x17; xd1; x94; x5b; x1e; xca; x8f; x40; x05; xc3; x86; x49; x0c; xfc; xb9; x76; x33; xf5; xb0; x7f; x3a; xee; xab; x64; x21; xe7; xa2; x6d; x28; x3d; x78; xb7; xf2; x34; x71; xbe; xfb; x2f; x6a; xa5; xe0; x26; x63; xac; xe9; x19; x5c; x93; xd6; x10; x55; x9a; xdf; x0b; x4e; x81; xc4; x02; x47; x88; xcd; x75; x30; xff; xba; x7c; x39; xf6; xb3; x67; x22; xed; xa8; x6e; x2b; xe4; xa1; x51; x14; xdb; x9e; x58; x1d; xd2; x97; x43; x06; xc9; x8c; x4a; x0f; xc0; x85; xad; xe8; x27; x62; xa4; xe1; x2e; x6b; xbf; xfa; x35; x70; xb6; xf3; x3c; x79; x89; xcc; x03; x46; x80; xc5; x0a; x4f; x9b; xde; x11; x54; x92; xd7; x18; x5d; xe5; xa0; x6f; x2a; xec; xa9; x66; x23; xf7; xb2; x7d; x38; xfe; xbb; x74; x31; xc1; x84; x4b; x0e; xc8; x8d; x42; x07; xd3; x96; x59; x1c; xda; x9f; x50; x15];
   [x00; x46; x8c; xca; x05; x43; x89; xcf; x0a; x4c; x86; xc0; x0f; x49; x83; xc5; x14; x52; x98; xde; x11; x57; x9d; xdb; x1e; x58; x92; xd4; x1b; x5d; x97; xd1; x28; x6e; xa4; xe2; x2d; x6b; xa1; xe7; x22; x64; xae; xe8; x27; x61; xab; xed; x3c; x7a; xb0; xf6; x39; x7f; xb5; xf3; x36; x70; xba; xfc; x33; x75; xbf; xf9; x50; x16; xdc; x9a; x55; x13; xd9; x9f; x5a; x1c; xd6; x90; x5f; x19; xd3; x95; x44; x02; xc8; x8e; x41; x07; xcd; x8b; x4e; x08; xc2; x84; x4b; x0d; xc7; x81; x78; x3e; xf4; xb2; x7d; x3b; xf1; xb7; x72; x34; xfe; xb8; x77; x31; xfb; xbd; x6c; x2a; xe0; xa6; x69; x2f; xe5; xa3; x66; x20; xea; xac; x63; x25; xef; xa9; xa0; xe6; x2c; x6a; xa5; xe3; x29; x6f; xaa; xec; x26; x60; xaf; xe9; x23; x65; xb4; xf2; x38; x7e; xb1; xf7; x3d; x7b; xbe; xf8; x32; x74; xbb; xfd; x37; x71; x88; xce; x04; x42; x8d; xcb; x01; x47; x82; xc4; x0e; x48; x87; xc1; x0b; x4d; x9c; xda; x10; x56; x99; xdf; x15; x53; x96; xd0; x1a; x5c; x93; xd5; x1f; x59; xf0; xb6; x7c; x3a; xf5; xb3; x79; x3f; xfa; xbc; x76; x30; xff; xb9; x73; x35; xe4; xa2; x68; x2e; xe1; xa7; x6d; x2b; xee; xa8; x62; x24; xeb; xad; x67; x21; xd8; x9e; x54; x12; xdd; x9b; x51; x17; xd2; x94; x5e; x18; xd7; x91; x5b; x1d; xcc; x8a; x40; x06; xc9; x8f; x45; x03; xc6; x80; x4a; x0c; xc3; x85; x4f; x09];
   [x00; x47; x8e; xc9; x01; x46; x8f; xc8; x02; x45; x8c; xcb; x03; x44; x8d; xca; x04; x43; x8a; xcd; x05; x42; x8b; xcc; x06; x41; x88; xcf; x07; x40; x89; xce; x08; x4f; x86; xc1; x09; x4e; x87; xc0; x0a; x4d; x84; xc3; x0b; x4c; x85; xc2; x0c; x4b; x82; xc5; x0d; x4a; x83; xc4; x0e; x49; x80; xc7; x0f; x48; x81; xc6; x10; x57; x9e; xd9; x11; x56; x9f; xd8; x12; x55; x9c; xdb; x13; x54; x9d; xda; x14; x53; x9a; xdd; x15; x52; x9b; xdc; x16; x51; x98; xdf; x17; x50; x99; xde; x18; x5f; x96; xd1; x19; x5e; x97; xd0; x1a; x5d; x94; xd3; x1b; x5c; x95; xd2; x1c; x5b; x92; xd5; x1d; x5a; x93; xd4; x1e; x59; x90; xd7; x1f; x58; x91; xd6; x20; x67; xae; xe9; x21; x66; xaf; xe8; x22; x65; xac; xeb; x23; x64; xad; xea; x24; x63; xaa; xed; x25; x62; xab; xec; x26; x61; xa8; xef; x27; x60; xa9; xee; x28; x6f; xa6; xe1; x29; x6e; xa7; xe0; x2a; x6d; xa4; xe3; x2b; x6c; xa5; xe2; x2c; x6b; xa2; xe5; x2d; x6a; xa3; xe4; x2e; x69; xa0; xe7; x2f; x68; xa1; xe6; x30; x77; xbe; xf9; x31; x76; xbf; xf8; x32; x75; xbc; xfb; x33; x74; xbd; xfa; x34; x73; xba; xfd; x35; x72; xbb; xfc; x36; x71; xb8; xff; x37; x70; xb9; xfe; x38; x7f; xb6; xf1; x39; x7e; xb7; xf0; x3a; x7d; xb4; xf3; x3b; x7c; xb5; xf2; x3c; x7b; xb2; xf5; x3d; x7a; xb3; xf4; x3e; x79; xb0; xf7; x3f; x78; xb1; xf6];
   [x00; x48; x90; xd8; x3d; x75; xad; xe5; x7a; x32; xea; xa2; x47; x0f; xd7; x9f; xf4; xbc; x64; x2c; xc9; x81; x59; x11; x8e; xc6; x1e; x56; xb3; xfb; x23; x6b; xf5; xbd; x65; x2d; xc8; x80; x58; x10; x8f; xc7; x1f; x57; xb2; xfa; x22; x6a; x01; x49; x91; xd9; x3c; x74; xac; xe4; x7b; x33; xeb; xa3; x46; x0e; xd6; x9e; xf7; xbf; x67; x2f; xca; x82; x5a; x12; x8d; xc5; x1d; x55; xb0; xf8; x20; x68; x03; x4b; x93; xdb; x3e; x76; xae; xe6; x79; x31; xe9; xa1; x44; x0c; xd4; x9c; x02; x4a; x92; xda; x3f; x77; xaf; xe7; x78; x30; xe8; xa0; x45; x0d; xd5; x9d; xf6; xbe; x66; x2e; xcb; x83; x5b; x13; x8c; xc4; x1c; x54; xb1; xf9; x21; x69; xf3; xbb; x63; x2b; xce; x86; x5e; x16; x89; xc1; x19; x51; xb4; xfc; x24; x6c; x07; x4f; x97; xdf; x3a; x72; xaa; xe2; x7d; x35; xed; xa5; x40; x08; xd0; x98; x06; x4e; x96; xde; x3b; x73; xab; xe3; x7c; x34; xec; xa4; x41; x09; xd1; x99; xf2; xba; x62; x2a; xcf; x87; x5f; x17; x88; xc0; x18; x50; xb5; xfd; x25; x6d; x04; x4c; x94; xdc; x39; x71; xa9; xe1; x7e; x36; xee; xa6; x43; x0b; xd3; x9b; xf0; xb8; x60; x28; xcd; x85; x5d; x15; x8a; xc2; x1a; x52; xb7; xff; x27; x6f; xf1; xb9; x61; x29; xcc; x84; x5c; x14; x8b; xc3; x1b; x53; xb6; xfe; x26; x6e; x05; x4d; x95; xdd; x38; x70; xa8; xe0; x7f; x37; xef; xa7; x42; x0a; xd2; x9a];
   [x00; x49; x92; xdb; x39; x70; xab; xe2; x72; x3b; xe0; xa9; x4b; x02; xd9; x90; xe4; xad; x76; x3f; xdd; x94; x4f; x06; x96; xdf; x04; x4d; xaf; xe6; x3d; x74; xd5; x9c; x47; x0e; xec; xa5; x7e; x37; xa7; xee; x35; x7c; x9e; xd7; x0c; x45; x31; x78; xa3; xea; x08; x41; x9a; xd3; x43; x0a; xd1; x98; x7a; x33; xe8; xa1; xb7; xfe; x25; x6c; x8e; xc7; x1c; x55; xc5; x8c; x57; x1e; xfc; xb5; x6e; x27; x53; x1a; xc1; x88; x6a; x23; xf8; xb1; x21; x68; xb3; xfa; x18; x51; x8a; xc3; x62; x2b; xf0; xb9; x5b; x12; xc9; x80; x10; x59; x82; xcb; x29; x60; xbb; xf2; x86; xcf; x14; x5d; xbf; xf6; x2d; x64; xf4; xbd; x66; x2f; xcd; x84; x5f; x16; x73; x3a; xe1; xa8; x4a; x03; xd8; x91; x01; x48; x93; xda; x38; x71; xaa; xe3; x97; xde; x05; x4c; xae; xe7; x3c; x75; xe5; xac; x77; x3e; xdc; x95; x4e; x07; xa6; xef; x34; x7d; x9f; xd6; x0d; x44; xd4; x9d; x46; x0f; xed; xa4; x7f; x36; x42; x0b; xd0; x99; x7b; x32; xe9; xa0; x30; x79; xa2; xeb; x09; x40; x9b; xd2; xc4; x8d; x56; x1f; xfd; xb4; x6f; x26; xb6; xff; x24; x6d; x8f; xc6; x1d; x54; x20; x69; xb2; xfb; x19; x50; x8b; xc2; x52; x1b; xc0; x89; x6b; x22; xf9; xb0; x11; x58; x83; xca; x28; x61; xba; xf3; x63; x2a; xf1; xb8; x5a; x13; xc8; x81; xf5; xbc; x67; x2e; xcc; x85; x5e; x17; x87; xce; x15; x5c; xbe; xf7; x2c; x65];
   [x00; x4a; x94; xde; x35; x7f; xa1; xeb; x6a; x20; xfe; xb4; x5f; x15; xcb; x81; xd4; x9e; x40; x0a; xe1; xab; x75; x3f; xbe; xf4; x2a; x60; x8b; xc1; x1f; x55; xb5; xff; x21; x6b; x80; xca; x14; x5e; xdf; x95; x4b; x01; xea; xa0; x7e; x34; x61; x2b; xf5; xbf; x54; x1e; xc0; x8a; x0b; x41; x9f; xd5; x3e; x74; xaa; xe0; x77; x3d; xe3; xa9; x42; x08; xd6; x9c; x1d; x57; x89; xc3; x28; x62; xbc; xf6; xa3; xe9; x37; x7d; x96; xdc; x02; x48; xc9; x83; x5d; x17; xfc; xb6; x68; x22; xc2; x88; x56; x1c; xf7; xbd; x63; x29; xa8; xe2; x3c; x76; x9d; xd7; x09; x43; x16; x5c; x82; xc8; x23; x69; xb7; xfd; x7c; x36; xe8; xa2; x49; x03; xdd; x97; xee; xa4; x7a; x30; xdb; x91; x4f; x05; x84; xce; x10; x5a; xb1; xfb; x25; x6f; x3a; x70; xae; xe4; x0f; x45; x9b; xd1; x50; x1a; xc4; x8e; x65; x2f; xf1; xbb; x5b; x11; xcf; x85; x6e; x24; xfa; xb0; x31; x7b; xa5; xef; x04; x4e; x90; xda; x8f; xc5; x1b; x51; xba; xf0; x2e; x64; xe5; xaf; x71; x3b; xd0; x9a; x44; x0e; x99; xd3; x0d; x47; xac; xe6; x38; x72; xf3; xb9; x67; x2d; xc6; x8c; x52; x18; x4d; x07; xd9; x93; x78; x32; xec; xa6; x27; x6d; xb3; xf9; x12; x58; x86; xcc; x2c; x66; xb8; xf2; x19; x53; x8d; xc7; x46; x0c; xd2; x98; x73; x39; xe7; xad; xf8; xb2; x6c; x26; xcd; x87; x59; x13; x92; xd8; x06; x4c; xa7; xed; x33; x79];
   [x00; x4b; x96; xdd; x31; x7a; xa7; xec; x62; x29; xf4; xbf; x53; x18; xc5; x8e; xc4; x8f; x52; x19; xf5; xbe; x63; x28; xa6; xed; x30; x7b; x97; xdc; x01; x4a; x95; xde; x03; x48; xa4; xef; x32; x79; xf7; xbc; x61; x2a; xc6; x8d; x50; x1b; x51; x1a; xc7; x8c; x60; x2b; xf6; xbd; x33; x78; xa5; xee; x02; x49; x94; xdf; x37; x7c; xa1; xea; x06; x4d; x90; xdb; x55; x1e; xc3; x88; x64; x2f; xf2; xb9; xf3; xb8; x65; x2e; xc2; x89; x54; x1f; x91; xda; x07; x4c; xa0; xeb; x36; x7d; xa2; xe9; x34; x7f; x93; xd8; x05; x4e; xc0; x8b; x56; x1d; xf1; xba; x67; x2c; x66; x2d; xf0; xbb; x57; x1c; xc1; x8a; x04; x4f; x92; xd9; x35; x7e; xa3; xe8; x6e; x25; xf8; xb3; x5f; x14; xc9; x82; x0c; x47; x9a; xd1; x3d; x76; xab; xe0; xaa; xe1; x3c; x77; x9b; xd0; x0d; x46; xc8; x83; x5e; x15; xf9; xb2; x6f; x24; xfb; xb0; x6d; x26; xca; x81; x5c; x17; x99; xd2; x0f; x44; xa8; xe3; x3e; x75; x3f; x74; xa9; xe2; x0e; x45; x98; xd3; x5d; x16; xcb; x80; x6c; x27; xfa; xb1; x59; x12; xcf; x84; x68; x23; xfe; xb5; x3b; x70; xad; xe6; x0a; x41; x9c; xd7; x9d; xd6; x0b; x40; xac; xe7; x3a; x71; xff; xb4; x69; x22; xce; x85; x58; x13; xcc; x87; x5a; x11; xfd; xb6; x6b; x20; xae; xe5; x38; x73; x9f; xd4; x09; x42; x08; x43; x9e; xd5; x39; x72; xaf; xe4; x6a; x21; xfc; xb7; x5b; x10; xcd; x86];
   [x00; x4c; x98; xd4; x2d; x61; xb5; xf9; x5a; x16; xc2; x8e; x77; x3b; xef; xa3; xb4; xf8; x2c; x60; x99; xd5; x01; x4d; xee; xa2; x76; x3a; xc3; x8f; x5b; x17; x75; x39; xed; xa1; x58; x14; xc0; x8c; x2f; x63; xb7; xfb; x02; x4e; x9a; xd6; xc1; x8d; x59; x15; xec; xa0; x74; x38; x9b; xd7; x03; x4f; xb6; xfa; x2e; x62; xea; xa6; x72; x3e; xc7; x8b; x5f; x13; xb0; xfc; x28; x64; x9d; xd1; x05; x49; x5e; x12; xc6; x8a; x73; x3f; xeb; xa7; x04; x48; x9c; xd0; x29; x65; xb1; xfd; x9f; xd3; x07; x4b; xb2; xfe; x2a; x66; xc5; x89; x5d; x11; xe8; xa4; x70; x3c; x2b; x67; xb3; xff; x06; x4a; x9e; xd2; x71; x3d; xe9; xa5; x5c; x10; xc4; x88; xc9; x85; x51; x1d; xe4; xa8; x7c; x30; x93; xdf; x0b; x47; xbe; xf2; x26; x6a; x7d; x31; xe5; xa9; x50; x1c; xc8; x84; x27; x6b; xbf; xf3; x0a; x46; x92; xde; xbc; xf0; x24; x68; x91; xdd; x09; x45; xe6; xaa; x7e; x32; xcb; x87; x53; x1f; x08; x44; x90; xdc; x25; x69; xbd; xf1; x52; x1e; xca; x86; x7f; x33; xe7; xab; x23; x6f; xbb; xf7; x0e; x42; x96; xda; x79; x35; xe1; xad; x54; x18; xcc; x80; x97; xdb; x0f; x43; xba; xf6; x22; x6e; xcd; x81; x55; x19; xe0; xac; x78; x34; x56; x1a; xce; x82; x7b; x37; xe3; xaf; x0c; x40; x94; xd8; x21; x6d; xb9; xf5; xe2; xae; x7a; x36; xcf; x83; x57; x1b; xb8; xf4; x20; x6c; x95; xd9; x0d; x41];
   [x00; x4d; x9a; xd7; x29; x64; xb3; xfe; x52; x1f; xc8; x85; x7b; x36; xe1; xac; xa4; xe9; x3e; x73; x8d; xc0; x17; x5a; xf6; xbb; x6c; x21; xdf; x92; x45; x08; x55; x18; xcf; x82; x7c; x31; xe6; xab; x07; x4a; x9d; xd0; x2e; x63; xb4; xf9; xf1; xbc; x6b; x26; xd8; x95; x42; x0f; xa3; xee; x39; x74; x8a; xc7; x10; x5d; xaa; xe7; x30; x7d; x83; xce; x19; x54; xf8; xb5; x62; x2f; xd1; x9c; x4b; x06; x0e; x43; x94; xd9; x27; x6a; xbd; xf0; x5c; x11; xc6; x8b; x75; x38; xef; xa2; xff; xb2; x65; x28; xd6; x9b; x4c; x01; xad; xe0; x37; x7a; x84; xc9; x1e; x53; x5b; x16; xc1; x8c; x72; x3f; xe8; xa5; x09; x44; x93; xde; x20; x6d; xba; xf7; x49; x04; xd3; x9e; x60; x2d; xfa; xb7; x1b; x56; x81; xcc; x32; x7f; xa8; xe5; xed; xa0; x77; x3a; xc4; x89; x5e; x13; xbf; xf2; x25; x68; x96; xdb; x0c; x41; x1c; x51; x86; xcb; x35; x78; xaf; xe2; x4e; x03; xd4; x99; x67; x2a; xfd; xb0; xb8; xf5; x22; x6f; x91; xdc; x0b; x46; xea; xa7; x70; x3d; xc3; x8e; x59; x14; xe3; xae; x79; x34; xca; x87; x50; x1d; xb1; xfc; x2b; x66; x98; xd5; x02; x4f; x47; x0a; xdd; x90; x6e; x23; xf4; xb9; x15; x58; x8f; xc2; x3c; x71; xa6; xeb; xb6; xfb; x2c; x61; x9f; xd2; x05; x48; xe4; xa9; x7e; x33; xcd; x80; x57; x1a; x12; x5f; x88; xc5; x3b; x76; xa1; xec; x40; x0d; xda; x97; x69; x24; xf3; xbe];
   [x00; x4e; x9c; xd2; x25; x6b; xb9; xf7; x4a; x04; xd6; x98; x6f; x21; xf3; xbd; x94; xda; x08; x46; xb1; xff; x2d; x63; xde; x90; x42; x0c; xfb; xb5; x67; x29; x35; x7b; xa9; xe7; x10; x5e; x8c; xc2; x7f; x31; xe3; xad; x5a; x14; xc6; x88; xa1; xef; x3d; x73; x84; xca; x18; x56; xeb; xa5; x77; x39; xce; x80; x52; x1c; x6a; x24; xf6; xb8; x4f; x01; xd3; x9d; x20; x6e; xbc; xf2; x05; x4b; x99; xd7; xfe; xb0; x62; x2c; xdb; x95; x47; x09; xb4; xfa; x28; x66; x91; xdf; x0d; x43; x5f; x11; xc3; x8d; x7a; x34; xe6; xa8; x15; x5b; x89; xc7; x30; x7e; xac; xe2; xcb; x85; x57; x19; xee; xa0; x72; x3c; x81; xcf; x1d; x53; xa4; xea; x38; x76; xd4; x9a; x48; x06; xf1; xbf; x6d; x23; x9e; xd0; x02; x4c; xbb; xf5; x27; x69; x40; x0e; xdc; x92; x65; x2b; xf9; xb7; x0a; x44; x96; xd8; x2f; x61; xb3; xfd; xe1; xaf; x7d; x33; xc4; x8a; x58; x16; xab; xe5; x37; x79; x8e; xc0; x12; x5c; x75; x3b; xe9; xa7; x50; x1e; xcc; x82; x3f; x71; xa3; xed; x1a; x54; x86; xc8; xbe; xf0; x22; x6c; x9b; xd5; x07; x49; xf4; xba; x68; x26; xd1; x9f; x4d; x03; x2a; x64; xb6; xf8; x0f; x41; x93; xdd; x60; x2e; xfc; xb2; x45; x0b; xd9; x97; x8b; xc5; x17; x59; xae; xe0; x32; x7c; xc1; x8f; x5d; x13; xe4; xaa; x78; x36; x1f; x51; x83; xcd; x3a; x74; xa6; xe8; x55; x1b; xc9; x87; x70; x3e; xec; xa2];
   [x00; x4f; x9e; xd1; x21; x6e; xbf; xf0; x42; x0d; xdc; x93; x63; x2c; xfd; xb2; x84; xcb; x1a; x55; xa5; xea; x3b; x74; xc6; x89; x58; x17; xe7; xa8; x79; x36; x15; x5a; x8b; xc4; x34; x7b; xaa; xe5; x57; x18; xc9; x86; x76; x39; xe8; xa7; x91; xde; x0f; x40; xb0; xff; x2e; x61; xd3; x9c; x4d; x02; xf2; xbd; x6c; x23; x2a; x65; xb4; xfb; x0b; x44; x95; xda; x68; x27; xf6; xb9; x49; x06; xd7; x98; xae; xe1; x30; x7f; x8f; xc0; x11; x5e; xec; xa3; x72; x3d; xcd; x82; x53; x1c; x3f; x70; xa1; xee; x1e; x51; x80; xcf; x7d; x32; xe3; xac; x5c; x13; xc2; x8d; xbb; xf4; x25; x6a; x9a; xd5; x04; x4b; xf9; xb6; x67; x28; xd8; x97; x46; x09; x54; x1b; xca; x85; x75; x3a; xeb; xa4; x16; x59; x88; xc7; x37; x78; xa9; xe6; xd0; x9f; x4e; x01; xf1; xbe; x6f; x20; x92; xdd; x0c; x43; xb3; xfc; x2d; x62; x41; x0e; xdf; x90; x60; x2f; xfe; xb1; x03; x4c; x9d; xd2; x22; x6d; xbc; xf3; xc5; x8a; x5b; x14; xe4; xab; x7a; x35; x87; xc8; x19; x56; xa6; xe9; x38; x77; x7e; x31; xe0; xaf; x5f; x10; xc1; x8e; x3c; x73; xa2; xed; x1d; x52; x83; xcc; xfa; xb5; x64; x2b; xdb; x94; x45; x0a; xb8; xf7; x26; x69; x99; xd6; x07; x48; x6b; x24; xf5; xba; x4a; x05; xd4; x9b; x29; x66; xb7; xf8; x08; x47; x96; xd9; xef; xa0; x71; x3e; xce; x81; x50; x1f; xad; xe2; x33; x7c; x8c; xc3; x12; x5d];
   [x00; x50; xa0; xf0; x5d; x0d; xfd; xad; xba; xea; x1a; x4a; xe7; xb7; x47; x17; x69; x39; xc9; x99; x34; x64; x94; xc4; xd3; x83; x73; x23; x8e; xde; x2e; x7e; xd2; x82; x72; x22; x8f; xdf; x2f; x7f; x68; x38; xc8; x98; x35; x65; x95; xc5; xbb; xeb; x1b; x4b; xe6; xb6; x46; x16; x01; x51; xa1; xf1; x5c; x0c; xfc; xac; xb9; xe9; x19; x49; xe4; xb4; x44; x14; x03; x53; xa3; xf3; x5e; x0e; xfe; xae; xd0; x80; x70; x20; x8d; xdd; x2d; x7d; x6a; x3a; xca; x9a; x37; x67; x97; xc7; x6b; x3b; xcb; x9b; x36; x66; x96; xc6; xd1; x81; x71; x21; x8c; xdc; x2c; x7c; x02; x52; xa2; xf2; x5f; x0f; xff; xaf; xb8; xe8; x18; x48; xe5; xb5; x45; x15; x6f; x3f; xcf; x9f; x32; x62; x92; xc2; xd5; x85; x75; x25; x88; xd8; x28; x78; x06; x56; xa6; xf6; x5b; x0b; xfb; xab; xbc; xec; x1c; x4c; xe1; xb1; x41; x11; xbd; xed; x1d; x4d; xe0; xb0; x40; x10; x07; x57; xa7; xf7; x5a; x0a; xfa; xaa; xd4; x84; x74; x24; x89; xd9; x29; x79; x6e; x3e; xce; x9e; x33; x63; x93; xc3; xd6; x86; x76; x26; x8b; xdb; x2b; x7b; x6c; x3c; xcc; x9c; x31; x61; x91; xc1; xbf; xef; x1f; x4f; xe2; xb2; x42; x12; x05; x55; xa5; xf5; x58; x08; xf8; xa8; x04; x54; xa4; xf4; x59; x09; xf9; xa9; xbe; xee; x1e; x4e; xe3; xb3; x43; x13; x6d; x3d; xcd; x9d; x30; x60; x90; xc0; xd7; x87; x77; x27; x8a; xda; x2a; x7a];
   [x00; x51; xa2; xf3; x59; x08; xfb; xaa; xb2; xe3; x10; x41; xeb; xba; x49; x18; x79; x28; xdb; x8a; x20; x71; x82; xd3; xcb; x9a; x69; x38; x92; xc3; x30; x61; xf2; xa3; x50; x01; xab; xfa; x09; x58; x40; x11; xe2; xb3; x19; x48; xbb; xea; x8b; xda; x29; x78; xd2; x83; x70; x21; x39; x68; x9b; xca; x60; x31; xc2; x93; xf9; xa8; x5b; x0a; xa0; xf1; x02; x53; x4b; x1a; xe9; xb8; x12; x43; xb0; xe1; x80; xd1; x22; x73; xd9; x88; x7b; x2a; x32; x63; x90; xc1; x6b; x3a; xc9; x98; x0b; x5a; xa9; xf8; x52; x03; xf0; xa1; xb9; xe8; x1b; x4a; xe0; xb1; x42; x13; x72; x23; xd0; x81; x2b; x7a; x89; xd8; xc0; x91; x62; x33; x99; xc8; x3b; x6a; xef; xbe; x4d; x1c; xb6; xe7; x14; x45; x5d; x0c; xff; xae; x04; x55; xa6; xf7; x96; xc7; x34; x65; xcf; x9e; x6d; x3c; x24; x75; x86; xd7; x7d; x2c; xdf; x8e; x1d; x4c; xbf; xee; x44; x15; xe6; xb7; xaf; xfe; x0d; x5c; xf6; xa7; x54; x05; x64; x35; xc6; x97; x3d; x6c; x9f; xce; xd6; x87; x74; x25; x8f; xde; x2d; x7c; x16; x47; xb4; xe5; x4f; x1e; xed; xbc; xa4; xf5; x06; x57; xfd; xac; x5f; x0e; x6f; x3e; xcd; x9c; x36; x67; x94; xc5; xdd; x8c; x7f; x2e; x84; xd5; x26; x77; xe4; xb5; x46; x17; xbd; xec; x1f; x4e; x56; x07; xf4; xa5; x0f; x5e; xad; xfc; x9d; xcc; x3f; x6e; xc4; x95; x66; x37; x2f; x7e; x8d; xdc; x76; x27; xd4; x85];
   [x00; x52; xa4; xf6; x55; x07; xf1; xa3; xaa; xf8; x0e; x5c; xff; xad; x5b; x09; x49; x1b; xed; xbf; x1c; x4e; xb8; xea; xe3; xb1; x47; x15; xb6; xe4; x12; x40; x92; xc0; x36; x64; xc7; x95; x63; x31; x38; x6a; x9c; xce; x6d; x3f; xc9; x9b; xdb; x89; x7f; x2d; x8e; xdc; x2a; x78; x71; x23; xd5; x87; x24; x76; x80; xd2; x39; x6b; x9d; xcf; x6c; x3e; xc8; x9a; x93; xc1; x37; x65; xc6; x94; x62; x30; x70; x22; xd4; x86; x25; x77; x81; xd3; xda; x88; x7e; x2c; x8f; xdd; x2b; x79; xab; xf9; x0f; x5d; xfe; xac; x5a; x08; x01; x53; xa5; xf7; x54; x06; xf0; xa2; xe2; xb0; x46; x14; xb7; xe5; x13; x41; x48; x1a; xec; xbe; x1d; x4f; xb9; xeb; x72; x20; xd6; x84; x27; x75; x83; xd1; xd8; x8a; x7c; x2e; x8d; xdf; x29; x7b; x3b; x69; x9f; xcd; x6e; x3c; xca; x98; x91; xc3; x35; x67; xc4; x96; x60; x32; xe0; xb2; x44; x16; xb5; xe7; x11; x43; x4a; x18; xee; xbc; x1f; x4d; xbb; xe9; xa9; xfb; x0d; x5f; xfc; xae; x58; x0a; x03; x51; xa7; xf5; x56; x04; xf2; xa0; x4b; x19; xef; xbd; x1e; x4c; xba; xe8; xe1; xb3; x45; x17; xb4; xe6; x10; x42; x02; x50; xa6; xf4; x57; x05; xf3; xa1; xa8; xfa; x0c; x5e; xfd; xaf; x59; x0b; xd9; x8b; x7d; x2f; x8c; xde; x28; x7a; x73; x21; xd7; x85; x26; x74; x82; xd0; x90; xc2; x34; x66; xc5; x97; x61; x33; x3a; x68; x9e; xcc; x6f; x3d; xcb; x99];
   [x00; x53; xa6; xf5; x51; x02; xf7; xa4; xa2; xf1; x04; x57; xf3; xa0; x55; x06; x59; x0a; xff; xac; x08; x5b; xae; xfd; xfb; xa8; x5d; x0e; xaa; xf9; x0c; x5f; xb2; xe1; x14; x47; xe3; xb0; x45; x16; x10; x43; xb6; xe5; x41; x12; xe7; xb4; xeb; xb8; x4d; x1e; xba; xe9; x1c; x4f; x49; x1a; xef; xbc; x18; x4b; xbe; xed; x79; x2a; xdf; x8c; x28; x7b; x8e; xdd; xdb; x88; x7d; x2e; x8a; xd9; x2c; x7f; x20; x73; x86; xd5; x71; x22; xd7; x84; x82; xd1; x24; x77; xd3; x80; x75; x26; xcb; x98; x6d; x3e; x9a; xc9; x3c; x6f; x69; x3a; xcf; x9c; x38; x6b; x9e; xcd; x92; xc1; x34; x67; xc3; x90; x65; x36; x30; x63; x96; xc5; x61; x32; xc7; x94; xf2; xa1; x54; x07; xa3; xf0; x05; x56; x50; x03; xf6; xa5; x01; x52; xa7; xf4; xab; xf8; x0d; x5e; xfa; xa9; x5c; x0f; x09; x5a; xaf; xfc; x58; x0b; xfe; xad; x40; x13; xe6; xb5; x11; x42; xb7; xe4; xe2; xb1; x44; x17; xb3; xe0; x15; x46; x19; x4a; xbf; xec; x48; x1b; xee; xbd; xbb; xe8; x1d; x4e; xea; xb9; x4c; x1f; x8b; xd8; x2d; x7e; xda; x89; x7c; x2f; x29; x7a; x8f; xdc; x78; x2b; xde; x8d; xd2; x81; x74; x27; x83; xd0; x25; x76; x70; x23; xd6; x85; x21; x72; x87; xd4; x39; x6a; x9f; xcc; x68; x3b; xce; x9d; x9b; xc8; x3d; x6e; xca; x99; x6c; x3f; x60; x33; xc6; x95; x31; x62; x97; xc4; xc2; x91; x64; x37; x93; xc0; x35; x66];
   [x00; x54; xa8; xfc; x4d; x19; xe5; xb1; x9a; xce; x32; x66; xd7; x83; x7f; x2b; x29; x7d; x81; xd5; x64; x30; xcc; x98; xb3; xe7; x1b; x4f; xfe; xaa; x56; x02; x52; x06; xfa; xae; x1f; x4b; xb7; xe3; xc8; x9c; x60; x34; x85; xd1; x2d; x79; x7b; x2f; xd3; x87; x36; x62; x9e; xca; xe1; xb5; x49; x1d; xac; xf8; x04; x50; xa4; xf0; x0c; x58; xe9; xbd; x41; x15; x3e; x6a; x96; xc2; x73; x27; xdb; x8f; x8d; xd9; x25; x71; xc0; x94; x68; x3c; x17; x43; xbf; xeb; x5a; x0e; xf2; xa6; xf6; xa2; x5e; x0a; xbb; xef; x13; x47; x6c; x38; xc4; x90; x21; x75; x89; xdd; xdf; x8b; x77; x23; x92; xc6; x3a; x6e; x45; x11; xed; xb9; x08; x5c; xa0; xf4; x55; x01; xfd; xa9; x18; x4c; xb0; xe4; xcf; x9b; x67; x33; x82; xd6; x2a; x7e; x7c; x28; xd4; x80; x31; x65; x99; xcd; xe6; xb2; x4e; x1a; xab; xff; x03; x57; x07; x53; xaf; xfb; x4a; x1e; xe2; xb6; x9d; xc9; x35; x61; xd0; x84; x78; x2c; x2e; x7a; x86; xd2; x63; x37; xcb; x9f; xb4; xe0; x1c; x48; xf9; xad; x51; x05; xf1; xa5; x59; x0d; xbc; xe8; x14; x40; x6b; x3f; xc3; x97; x26; x72; x8e; xda; xd8; x8c; x70; x24; x95; xc1; x3d; x69; x42; x16; xea; xbe; x0f; x5b; xa7; xf3; xa3; xf7; x0b; x5f; xee; xba; x46; x12; x39; x6d; x91; xc5; x74; x20; xdc; x88; x8a; xde; x22; x76; xc7; x93; x6f; x3b; x10; x44; xb8; xec; x5d; x09; xf5; xa1];
   [x00; x55; xaa; xff; x49; x1c; xe3; xb6; x92; xc7; x38; x6d; xdb; x8e; x71; x24; x39; x6c; x93; xc6; x70; x25; xda; x8f; xab; xfe; x01; x54; xe2; xb7; x48; x1d; x72; x27; xd8; x8d; x3b; x6e; x91; xc4; xe0; xb5; x4a; x1f; xa9; xfc; x03; x56; x4b; x1e; xe1; xb4; x02; x57; xa8; xfd; xd9; x8c; x73; x26; x90; xc5; x3a; x6f; xe4; xb1; x4e; x1b; xad; xf8; x07; x52; x76; x23; xdc; x89; x3f; x6a; x95; xc0; xdd; x88; x77; x22; x94; xc1; x3e; x6b; x4f; x1a; xe5; xb0; x06; x53; xac; xf9; x96; xc3; x3c; x69; xdf; x8a; x75; x20; x04; x51; xae; xfb; x4d; x18; xe7; xb2; xaf; xfa; x05; x50; xe6; xb3; x4c; x19; x3d; x68; x97; xc2; x74; x21; xde; x8b; xd5; x80; x7f; x2a; x9c; xc9; x36; x63; x47; x12; xed; xb8; x0e; x5b; xa4; xf1; xec; xb9; x46; x13; xa5; xf0; x0f; x5a; x7e; x2b; xd4; x81; x37; x62; x9d; xc8; xa7; xf2; x0d; x58; xee; xbb; x44; x11; x35; x60; x9f; xca; x7c; x29; xd6; x83; x9e; xcb; x34; x61; xd7; x82; x7d; x28; x0c; x59; xa6; xf3; x45; x10; xef; xba; x31; x64; x9b; xce; x78; x2d; xd2; x87; xa3; xf6; x09; x5c; xea; xbf; x40; x15; x08; x5d; xa2; xf7; x41; x14; xeb; xbe; x9a; xcf; x30; x65; xd3; x86; x79; x2c; x43; x16; xe9; xbc; x0a; x5f; xa0; xf5; xd1; x84; x7b; x2e; x98; xcd; x32; x67; x7a; x2f; xd0; x85; x33; x66; x99; xcc; xe8; xbd; x42; x17; xa1; xf4; x0b; x5e];
   [x00; x56; xac; xfa; x45; x13; xe9; xbf; x8a; xdc; x26; x70; xcf; x99; x63; x35; x09; x5f; xa5; xf3; x4c; x1a; xe0; xb6; x83; xd5; x2f; x79; xc6; x90; x6a; x3c; x12; x44; xbe; xe8; x57; x01; xfb; xad; x98; xce; x34; x62; xdd; x8b; x71; x27; x1b; x4d; xb7; xe1; x5e; x08; xf2; xa4; x91; xc7; x3d; x6b; xd4; x82; x78; x2e; x24; x72; x88; xde; x61; x37; xcd; x9b; xae; xf8; x02; x54; xeb; xbd; x47; x11; x2d; x7b; x81; xd7; x68; x3e; xc4; x92; xa7; xf1; x0b; x5d; xe2; xb4; x4e; x18; x36; x60; x9a; xcc; x73; x25; xdf; x89; xbc; xea; x10; x46; xf9; xaf; x55; x03; x3f; x69; x93; xc5; x7a; x2c; xd6; x80; xb5; xe3; x19; x4f; xf0; xa6; x5c; x0a; x48; x1e; xe4; xb2; x0d; x5b; xa1; xf7; xc2; x94; x6e; x38; x87; xd1; x2b; x7d; x41; x17; xed; xbb; x04; x52; xa8; xfe; xcb; x9d; x67; x31; x8e; xd8; x22; x74; x5a; x0c; xf6; xa0; x1f; x49; xb3; xe5; xd0; x86; x7c; x2a; x95; xc3; x39; x6f; x53; x05; xff; xa9; x16; x40; xba; xec; xd9; x8f; x75; x23; x9c; xca; x30; x66; x6c; x3a; xc0; x96; x29; x7f; x85; xd3; xe6; xb0; x4a; x1c; xa3; xf5; x0f; x59; x65; x33; xc9; x9f; x20; x76; x8c; xda; xef; xb9; x43; x15; xaa; xfc; x06; x50; x7e; x28; xd2; x84; x3b; x6d; x97; xc1; xf4; xa2; x58; x0e; xb1; xe7; x1d; x4b; x77; x21; xdb; x8d; x32; x64; x9e; xc8; xfd; xab; x51; x07; xb8; xee; x14; x42];
   [x00; x57; xae; xf9; x41; x16; xef; xb8; x82; xd5; x2c; x7b; xc3; x94; x6d; x3a; x19; x4e; xb7; xe0; x58; x0f; xf6; xa1; x9b; xcc; x35; x62; xda; x8d; x74; x23; x32; x65; x9c; xcb; x73; x24; xdd; x8a; xb0; xe7; x1e; x49; xf1; xa6; x5f; x08; x2b; x7c; x85; xd2; x6a; x3d; xc4; x93; xa9; xfe; x07; x50; xe8; xbf; x46; x11; x64; x33; xca; x9d; x25; x72; x8b; xdc; xe6; xb1; x48; x1f; xa7; xf0; x09; x5e; x7d; x2a; xd3; x84; x3c; x6b; x92; xc5; xff; xa8; x51; x06; xbe; xe9; x10; x47; x56; x01; xf8; xaf; x17; x40; xb9; xee; xd4; x83; x7a; x2d; x95; xc2; x3b; x6c; x4f; x18; xe1; xb6; x0e; x59; xa0; xf7; xcd; x9a; x63; x34; x8c; xdb; x22; x75; xc8; x9f; x66; x31; x89; xde; x27; x70; x4a; x1d; xe4; xb3; x0b; x5c; xa5; xf2; xd1; x86; x7f; x28; x90; xc7; x3e; x69; x53; x04; xfd; xaa; x12; x45; xbc; xeb; xfa; xad; x54; x03; xbb; xec; x15; x42; x78; x2f; xd6; x81; x39; x6e; x97; xc0; xe3; xb4; x4d; x1a; xa2; xf5; x0c; x5b; x61; x36; xcf; x98; x20; x77; x8e; xd9; xac; xfb; x02; x55; xed; xba; x43; x14; x2e; x79; x80; xd7; x6f; x38; xc1; x96; xb5; xe2; x1b; x4c; xf4; xa3; x5a; x0d; x37; x60; x99; xce; x76; x21; xd8; x8f; x9e; xc9; x30; x67; xdf; x88; x71; x26; x1c; x4b; xb2; xe5; x5d; x0a; xf3; xa4; x87; xd0; x29; x7e; xc6; x91; x68; x3f; x05; x52; xab; xfc; x44; x13; xea; xbd];
   [x00; x58; xb0; xe8; x7d; x25; xcd; x95; xfa; xa2; x4a; x12; x87; xdf; x37; x6f; xe9; xb1; x59; x01; x94; xcc; x24; x7c; x13; x4b; xa3; xfb; x6e; x36; xde; x86; xcf; x97; x7f; x27; xb2; xea; x02; x5a; x35; x6d; x85; xdd; x48; x10; xf8; xa0; x26; x7e; x96; xce; x5b; x03; xeb; xb3; xdc; x84; x6c; x34; xa1; xf9; x11; x49; x83; xdb; x33; x6b; xfe; xa6; x4e; x16; x79; x21; xc9; x91; x04; x5c; xb4; xec; x6a; x32; xda; x82; x17; x4f; xa7; xff; x90; xc8; x20; x78; xed; xb5; x5d; x05; x4c; x14; xfc; xa4; x31; x69; x81; xd9; xb6; xee; x06; x5e; xcb; x93; x7b; x23; xa5; xfd; x15; x4d; xd8; x80; x68; x30; x5f; x07; xef; xb7; x22; x7a; x92; xca; x1b; x43; xab; xf3; x66; x3e; xd6; x8e; xe1; xb9; x51; x09; x9c; xc4; x2c; x74; xf2; xaa; x42; x1a; x8f; xd7; x3f; x67; x08; x50; xb8; xe0; x75; x2d; xc5; x9d; xd4; x8c; x64; x3c; xa9; xf1; x19; x41; x2e; x76; x9e; xc6; x53; x0b; xe3; xbb; x3d; x65; x8d; xd5; x40; x18; xf0; xa8; xc7; x9f; x77; x2f; xba; xe2; x0a; x52; x98; xc0; x28; x70; xe5; xbd; x55; x0d; x62; x3a; xd2; x8a; x1f; x47; xaf; xf7; x71; x29; xc1; x99; x0c; x54; xbc; xe4; x8b; xd3; x3b; x63; xf6; xae; x46; x1e; x57; x0f; xe7; xbf; x2a; x72; x9a; xc2; xad; xf5; x1d; x45; xd0; x88; x60; x38; xbe; xe6; x0e; x56; xc3; x9b; x73; x2b; x44; x1c; xf4; xac; x39; x61; x89; xd1];
   [x00; x59; xb2; xeb; x79; x20; xcb; x92; xf2; xab; x40; x19; x8b; xd2; x39; x60; xf9; xa0; x4b; x12; x80; xd9; x32; x6b; x0b; x52; xb9; xe0; x72; x2b; xc0; x99; xef; xb6; x5d; x04; x96; xcf; x24; x7d; x1d; x44; xaf; xf6; x64; x3d; xd6; x8f; x16; x4f; xa4; xfd; x6f; x36; xdd; x84; xe4; xbd; x56; x0f; x9d; xc4; x2f; x76; xc3; x9a; x71; x28; xba; xe3; x08; x51; x31; x68; x83; xda; x48; x11; xfa; xa3; x3a; x63; x88; xd1; x43; x1a; xf1; xa8; xc8; x91; x7a; x23; xb1; xe8; x03; x5a; x2c; x75; x9e; xc7; x55; x0c; xe7; xbe; xde; x87; x6c; x35; xa7; xfe; x15; x4c; xd5; x8c; x67; x3e; xac; xf5; x1e; x47; x27; x7e; x95; xcc; x5e; x07; xec; xb5; x9b; xc2; x29; x70; xe2; xbb; x50; x09; x69; x30; xdb; x82; x10; x49; xa2; xfb; x62; x3b; xd0; x89; x1b; x42; xa9; xf0; x90; xc9; x22; x7b; xe9; xb0; x5b; x02; x74; x2d; xc6; x9f; x0d; x54; xbf; xe6; x86; xdf; x34; x6d; xff; xa6; x4d; x14; x8d; xd4; x3f; x66; xf4; xad; x46; x1f; x7f; x26; xcd; x94; x06; x5f; xb4; xed; x58; x01; xea; xb3; x21; x78; x93; xca; xaa; xf3; x18; x41; xd3; x8a; x61; x38; xa1; xf8; x13; x4a; xd8; x81; x6a; x33; x53; x0a; xe1; xb8; x2a; x73; x98; xc1; xb7; xee; x05; x5c; xce; x97; x7c; x25; x45; x1c; xf7; xae; x3c; x65; x8e; xd7; x4e; x17; xfc; xa5; x37; x6e; x85; xdc; xbc; xe5; x0e; x57; xc5; x9c; x77; x2e];
   [x00; x5a; xb4; xee; x75; x2f; xc1; x9b; xea; xb0; x5e; x04; x9f; xc5; x2b; x71; xc9; x93; x7d; x27; xbc; xe6; x08; x52; x23; x79; x97; xcd; x56; x0c; xe2; xb8; x8f; xd5; x3b; x61; xfa; xa0; x4e; x14; x65; x3f; xd1; x8b; x10; x4a; xa4; xfe; x46; x1c; xf2; xa8; x33; x69; x87; xdd; xac; xf6; x18; x42; xd9; x83; x6d; x37; x03; x59; xb7; xed; x76; x2c; xc2; x98; xe9; xb3; x5d; x07; x9c; xc6; x28; x72; xca; x90; x7e; x24; xbf; xe5; x0b; x51; x20; x7a; x94; xce; x55; x0f; xe1; xbb; x8c; xd6; x38; x62; xf9; xa3; x4d; x17; x66; x3c; xd2; x88; x13; x49; xa7; xfd; x45; x1f; xf1; xab; x30; x6a; x84; xde; xaf; xf5; x1b; x41; xda; x80; x6e; x34; x06; x5c; xb2; xe8; x73; x29; xc7; x9d; xec; xb6; x58; x02; x99; xc3; x2d; x77; xcf; x95; x7b; x21; xba; xe0; x0e; x54; x25; x7f; x91; xcb; x50; x0a; xe4; xbe; x89; xd3; x3d; x67; xfc; xa6; x48; x12; x63; x39; xd7; x8d; x16; x4c; xa2; xf8; x40; x1a; xf4; xae; x35; x6f; x81; xdb; xaa; xf0; x1e; x44; xdf; x85; x6b; x31; x05; x5f; xb1; xeb; x70; x2a; xc4; x9e; xef; xb5; x5b; x01; x9a; xc0; x2e; x74; xcc; x96; x78; x22; xb9; xe3; x0d; x57; x26; x7c; x92; xc8; x53; x09; xe7; xbd; x8a; xd0; x3e; x64; xff; xa5; x4b; x11; x60; x3a; xd4; x8e; x15; x4f; xa1; xfb; x43; x19; xf7; xad; x36; x6c; x82; xd8; xa9; xf3; x1d; x47; xdc; x86; x68; x32];
   [x00; x5b; xb6; xed; x71; x2a; xc7; x9c; xe2; xb9; x54; x0f; x93; xc8; x25; x7e; xd9; x82; x6f; x34; xa8; xf3; x1e; x45; x3b; x60; x8d; xd6; x4a; x11; xfc; xa7; xaf; xf4; x19; x42; xde; x85; x68; x33; x4d; x16; xfb; xa0; x3c; x67; x8a; xd1; x76; x2d; xc0; x9b; x07; x5c; xb1; xea; x94; xcf; x22; x79; xe5; xbe; x53; x08; x43; x18; xf5; xae; x32; x69; x84; xdf; xa1; xfa; x17; x4c; xd0; x8b; x66; x3d; x9a; xc1; x2c; x77; xeb; xb0; x5d; x06; x78; x23; xce; x95; x09; x52; xbf; xe4; xec; xb7; x5a; x01; x9d; xc6; x2b; x70; x0e; x55; xb8; xe3; x7f; x24; xc9; x92; x35; x6e; x83; xd8; x44; x1f; xf2; xa9; xd7; x8c; x61; x3a; xa6; xfd; x10; x4b; x86; xdd; x30; x6b; xf7; xac; x41; x1a; x64; x3f; xd2; x89; x15; x4e; xa3; xf8; x5f; x04; xe9; xb2; x2e; x75; x98; xc3; xbd; xe6; x0b; x50; xcc; x97; x7a; x21; x29; x72; x9f; xc4; x58; x03; xee; xb5; xcb; x90; x7d; x26; xba; xe1; x0c; x57; xf0; xab; x46; x1d; x81; xda; x37; x6c; x12; x49; xa4; xff; x63; x38; xd5; x8e; xc5; x9e; x73; x28; xb4; xef; x02; x59; x27; x7c; x91; xca; x56; x0d; xe0; xbb; x1c; x47; xaa; xf1; x6d; x36; xdb; x80; xfe; xa5; x48; x13; x8f; xd4; x39; x62; x6a; x31; xdc; x87; x1b; x40; xad; xf6; x88; xd3; x3e; x65; xf9; xa2; x4f; x14; xb3; xe8; x05; x5e; xc2; x99; x74; x2f; x51; x0a; xe7; xbc; x20; x7b; x96; xcd];
   [x00; x5c; xb8; xe4; x6d; x31; xd5; x89; xda; x86; x62; x3e; xb7; xeb; x0f; x53; xa9; xf5; x11; x4d; xc4; x98; x7c; x20; x73; x2f; xcb; x97; x1e; x42; xa6; xfa; x4f; x13; xf7; xab; x22; x7e; x9a; xc6; x95; xc9; x2d; x71; xf8; xa4; x40; x1c; xe6; xba; x5e; x02; x8b; xd7; x33; x6f; x3c; x60; x84; xd8; x51; x0d; xe9; xb5; x9e; xc2; x26; x7a; xf3; xaf; x4b; x17; x44; x18; xfc; xa0; x29; x75; x91; xcd; x37; x6b; x8f; xd3; x5a; x06; xe2; xbe; xed; xb1; x55; x09; x80; xdc; x38; x64; xd1; x8d; x69; x35; xbc; xe0; x04; x58; x0b; x57; xb3; xef; x66; x3a; xde; x82; x78; x24; xc0; x9c; x15; x49; xad; xf1; xa2; xfe; x1a; x46; xcf; x93; x77; x2b; x21; x7d; x99; xc5; x4c; x10; xf4; xa8; xfb; xa7; x43; x1f; x96; xca; x2e; x72; x88; xd4; x30; x6c; xe5; xb9; x5d; x01; x52; x0e; xea; xb6; x3f; x63; x87; xdb; x6e; x32; xd6; x8a; x03; x5f; xbb; xe7; xb4; xe8; x0c; x50; xd9; x85; x61; x3d; xc7; x9b; x7f; x23; xaa; xf6; x12; x4e; x1d; x41; xa5; xf9; x70; x2c; xc8; x94; xbf; xe3; x07; x5b; xd2; x8e; x6a; x36; x65; x39; xdd; x81; x08; x54; xb0; xec; x16; x4a; xae; xf2; x7b; x27; xc3; x9f; xcc; x90; x74; x28; xa1; xfd; x19; x45; xf0; xac; x48; x14; x9d; xc1; x25; x79; x2a; x76; x92; xce; x47; x1b; xff; xa3; x59; x05; xe1; xbd; x34; x68; x8c; xd0; x83; xdf; x3b; x67; xee; xb2; x56; x0a];
   [x00; x5d; xba; xe7; x69; x34; xd3; x8e; xd2; x8f; x68; x35; xbb; xe6; x01; x5c; xb9; xe4; x03; x5e; xd0; x8d; x6a; x37; x6b; x36; xd1; x8c; x02; x5f; xb8; xe5; x6f; x32; xd5; x88; x06; x5b; xbc; xe1; xbd; xe0; x07; x5a; xd4; x89; x6e; x33; xd6; x8b; x6c; x31; xbf; xe2; x05; x58; x04; x59; xbe; xe3; x6d; x30; xd7; x8a; xde; x83; x64; x39; xb7; xea; x0d; x50; x0c; x51; xb6; xeb; x65; x38; xdf; x82; x67; x3a; xdd; x80; x0e; x53; xb4; xe9; xb5; xe8; x0f; x52; xdc; x81; x66; x3b; xb1; xec; x0b; x56; xd8; x85; x62; x3f; x63; x3e; xd9; x84; x0a; x57; xb0; xed; x08; x55; xb2; xef; x61; x3c; xdb; x86; xda; x87; x60; x3d; xb3; xee; x09; x54; xa1; xfc; x1b; x46; xc8; x95; x72; x2f; x73; x2e; xc9; x94; x1a; x47; xa0; xfd; x18; x45; xa2; xff; x71; x2c; xcb; x96; xca; x97; x70; x2d; xa3; xfe; x19; x44; xce; x93; x74; x29; xa7; xfa; x1d; x40; x1c; x41; xa6; xfb; x75; x28; xcf; x92; x77; x2a; xcd; x90; x1e; x43; xa4; xf9; xa5; xf8; x1f; x42; xcc; x91; x76; x2b; x7f; x22; xc5; x98; x16; x4b; xac; xf1; xad; xf0; x17; x4a; xc4; x99; x7e; x23; xc6; x9b; x7c; x21; xaf; xf2; x15; x48; x14; x49; xae; xf3; x7d; x20; xc7; x9a; x10; x4d; xaa; xf7; x79; x24; xc3; x9e; xc2; x9f; x78; x25; xab; xf6; x11; x4c; xa9; xf4; x13; x4e; xc0; x9d; x7a; x27; x7b; x26; xc1; x9c; x12; x4f; xa8; xf5];
   [x00; x5e; xbc; xe2; x65; x3b; xd9; x87; xca; x94; x76; x28; xaf; xf1; x13; x4d; x89; xd7; x35; x6b; xec; xb2; x50; x0e; x43; x1d; xff; xa1; x26; x78; x9a; xc4; x0f; x51; xb3; xed; x6a; x34; xd6; x88; xc5; x9b; x79; x27; xa0; xfe; x1c; x42; x86; xd8; x3a; x64; xe3; xbd; x5f; x01; x4c; x12; xf0; xae; x29; x77; x95; xcb; x1e; x40; xa2; xfc; x7b; x25; xc7; x99; xd4; x8a; x68; x36; xb1; xef; x0d; x53; x97; xc9; x2b; x75; xf2; xac; x4e; x10; x5d; x03; xe1; xbf; x38; x66; x84; xda; x11; x4f; xad; xf3; x74; x2a; xc8; x96; xdb; x85; x67; x39; xbe; xe0; x02; x5c; x98; xc6; x24; x7a; xfd; xa3; x41; x1f; x52; x0c; xee; xb0; x37; x69; x8b; xd5; x3c; x62; x80; xde; x59; x07; xe5; xbb; xf6; xa8; x4a; x14; x93; xcd; x2f; x71; xb5; xeb; x09; x57; xd0; x8e; x6c; x32; x7f; x21; xc3; x9d; x1a; x44; xa6; xf8; x33; x6d; x8f; xd1; x56; x08; xea; xb4; xf9; xa7; x45; x1b; x9c; xc2; x20; x7e; xba; xe4; x06; x58; xdf; x81; x63; x3d; x70; x2e; xcc; x92; x15; x4b; xa9; xf7; x22; x7c; x9e; xc0; x47; x19; xfb; xa5; xe8; xb6; x54; x0a; x8d; xd3; x31; x6f; xab; xf5; x17; x49; xce; x90; x72; x2c; x61; x3f; xdd; x83; x04; x5a; xb8; xe6; x2d; x73; x91; xcf; x48; x16; xf4; xaa; xe7; xb9; x5b; x05; x82; xdc; x3e; x60; xa4; xfa; x18; x46; xc1; x9f; x7d; x23; x6e; x30; xd2; x8c; x0b; x55; xb7; xe9];
   [x00; x5f; xbe; xe1; x61; x3e; xdf; x80; xc2; x9d; x7c; x23; xa3; xfc; x1d; x42; x99; xc6; x27; x78; xf8; xa7; x46; x19; x5b; x04; xe5; xba; x3a; x65; x84; xdb; x2f; x70; x91; xce; x4e; x11; xf0; xaf; xed; xb2; x53; x0c; x8c; xd3; x32; x6d; xb6; xe9; x08; x57; xd7; x88; x69; x36; x74; x2b; xca; x95; x15; x4a; xab; xf4; x5e; x01; xe0; xbf; x3f; x60; x81; xde; x9c; xc3; x22; x7d; xfd; xa2; x43; x1c; xc7; x98; x79; x26; xa6; xf9; x18; x47; x05; x5a; xbb; xe4; x64; x3b; xda; x85; x71; x2e; xcf; x90; x10; x4f; xae; xf1; xb3; xec; x0d; x52; xd2; x8d; x6c; x33; xe8; xb7; x56; x09; x89; xd6; x37; x68; x2a; x75; x94; xcb; x4b; x14; xf5; xaa; xbc; xe3; x02; x5d; xdd; x82; x63; x3c; x7e; x21; xc0; x9f; x1f; x40; xa1; xfe; x25; x7a; x9b; xc4; x44; x1b; xfa; xa5; xe7; xb8; x59; x06; x86; xd9; x38; x67; x93; xcc; x2d; x72; xf2; xad; x4c; x13; x51; x0e; xef; xb0; x30; x6f; x8e; xd1; x0a; x55; xb4; xeb; x6b; x34; xd5; x8a; xc8; x97; x76; x29; xa9; xf6; x17; x48; xe2; xbd; x5c; x03; x83; xdc; x3d; x62; x20; x7f; x9e; xc1; x41; x1e; xff; xa0; x7b; x24; xc5; x9a; x1a; x45; xa4; xfb; xb9; xe6; x07; x58; xd8; x87; x66; x39; xcd; x92; x73; x2c; xac; xf3; x12; x4d; x0f; x50; xb1; xee; x6e; x31; xd0; x8f; x54; x0b; xea; xb5; x35; x6a; x8b; xd4; x96; xc9; x28; x77; xf7; xa8; x49; x16];
   [x00; x60; xc0; xa0; x9d; xfd; x5d; x3d; x27; x47; xe7; x87; xba; xda; x7a; x1a; x4e; x2e; x8e; xee; xd3; xb3; x13; x73; x69; x09; xa9; xc9; xf4; x94; x34; x54; x9c; xfc; x5c; x3c; x01; x61; xc1; xa1; xbb; xdb; x7b; x1b; x26; x46; xe6; x86; xd2; xb2; x12; x72; x4f; x2f; x8f; xef; xf5; x95; x35; x55; x68; x08; xa8; xc8; x25; x45; xe5; x85; xb8; xd8; x78; x18; x02; x62; xc2; xa2; x9f; xff; x5f; x3f; x6b; x0b; xab; xcb; xf6; x96; x36; x56; x4c; x2c; x8c; xec; xd1; xb1; x11; x71; xb9; xd9; x79; x19; x24; x44; xe4; x84; x9e; xfe; x5e; x3e; x03; x63; xc3; xa3; xf7; x97; x37; x57; x6a; x0a; xaa; xca; xd0; xb0; x10; x70; x4d; x2d; x8d; xed; x4a; x2a; x8a; xea; xd7; xb7; x17; x77; x6d; x0d; xad; xcd; xf0; x90; x30; x50; x04; x64; xc4; xa4; x99; xf9; x59; x39; x23; x43; xe3; x83; xbe; xde; x7e; x1e; xd6; xb6; x16; x76; x4b; x2b; x8b; xeb; xf1; x91; x31; x51; x6c; x0c; xac; xcc; x98; xf8; x58; x38; x05; x65; xc5; xa5; xbf; xdf; x7f; x1f; x22; x42; xe2; x82; x6f; x0f; xaf; xcf; xf2; x92; x32; x52; x48; x28; x88; xe8; xd5; xb5; x15; x75; x21; x41; xe1; x81; xbc; xdc; x7c; x1c; x06; x66; xc6; xa6; x9b; xfb; x5b; x3b; xf3; x93; x33; x53; x6e; x0e; xae; xce; xd4; xb4; x14; x74; x49; x29; x89; xe9; xbd; xdd; x7d; x1d; x20; x40; xe0; x80; x9a; xfa; x5a; x3a; x07; x67; xc7; xa7];
   [x00; x61; xc2; xa3; x99; xf8; x5b; x3a; x2f; x4e; xed; x8c; xb6; xd7; x74; x15; x5e; x3f; x9c; xfd; xc7; xa6; x05; x64; x71; x10; xb3; xd2; xe8; x89; x2a; x4b; xbc; xdd; x7e; x1f; x25; x44; xe7; x86; x93; xf2; x51; x30; x0a; x6b; xc8; xa9; xe2; x83; x20; x41; x7b; x1a; xb9; xd8; xcd; xac; x0f; x6e; x54; x35; x96; xf7; x65; x04; xa7; xc6; xfc; x9d; x3e; x5f; x4a; x2b; x88; xe9; xd3; xb2; x11; x70; x3b; x5a; xf9; x98; xa2; xc3; x60; x01; x14; x75; xd6; xb7; x8d; xec; x4f; x2e; xd9; xb8; x1b; x7a; x40; x21; x82; xe3; xf6; x97; x34; x55; x6f; x0e; xad; xcc; x87; xe6; x45; x24; x1e; x7f; xdc; xbd; xa8; xc9; x6a; x0b; x31; x50; xf3; x92; xca; xab; x08; x69; x53; x32; x91; xf0; xe5; x84; x27; x46; x7c; x1d; xbe; xdf; x94; xf5; x56; x37; x0d; x6c; xcf; xae; xbb; xda; x79; x18; x22; x43; xe0; x81; x76; x17; xb4; xd5; xef; x8e; x2d; x4c; x59; x38; x9b; xfa; xc0; xa1; x02; x63; x28; x49; xea; x8b; xb1; xd0; x73; x12; x07; x66; xc5; xa4; x9e; xff; x5c; x3d; xaf; xce; x6d; x0c; x36; x57; xf4; x95; x80; xe1; x42; x23; x19; x78; xdb; xba; xf1; x90; x33; x52; x68; x09; xaa; xcb; xde; xbf; x1c; x7d; x47; x26; x85; xe4; x13; x72; xd1; xb0; x8a; xeb; x48; x29; x3c; x5d; xfe; x9f; xa5; xc4; x67; x06; x4d; x2c; x8f; xee; xd4; xb5; x16; x77; x62; x03; xa0; xc1; xfb; x9a; x39; x58];
   [x00; x62; xc4; xa6; x95; xf7; x51; x33; x37; x55; xf3; x91; xa2; xc0; x66; x04; x6e; x0c; xaa; xc8; xfb; x99; x3f; x5d; x59; x3b; x9d; xff; xcc; xae; x08; x6a; xdc; xbe; x18; x7a; x49; x2b; x8d; xef; xeb; x89; x2f; x4d; x7e; x1c; xba; xd8; xb2; xd0; x76; x14; x27; x45; xe3; x81; x85; xe7; x41; x23; x10; x72; xd4; xb6; xa5; xc7; x61; x03; x30; x52; xf4; x96; x92; xf0; x56; x34; x07; x65; xc3; xa1; xcb; xa9; x0f; x6d; x5e; x3c; x9a; xf8; xfc; x9e; x38; x5a; x69; x0b; xad; xcf; x79; x1b; xbd; xdf; xec; x8e; x28; x4a; x4e; x2c; x8a; xe8; xdb; xb9; x1f; x7d; x17; x75; xd3; xb1; x82; xe0; x46; x24; x20; x42; xe4; x86; xb5; xd7; x71; x13; x57; x35; x93; xf1; xc2; xa0; x06; x64; x60; x02; xa4; xc6; xf5; x97; x31; x53; x39; x5b; xfd; x9f; xac; xce; x68; x0a; x0e; x6c; xca; xa8; x9b; xf9; x5f; x3d; x8b; xe9; x4f; x2d; x1e; x7c; xda; xb8; xbc; xde; x78; x1a; x29; x4b; xed; x8f; xe5; x87; x21; x43; x70; x12; xb4; xd6; xd2; xb0; x16; x74; x47; x25; x83; xe1; xf2; x90; x36; x54; x67; x05; xa3; xc1; xc5; xa7; x01; x63; x50; x32; x94; xf6; x9c; xfe; x58; x3a; x09; x6b; xcd; xaf; xab; xc9; x6f; x0d; x3e; x5c; xfa; x98; x2e; x4c; xea; x88; xbb; xd9; x7f; x1d; x19; x7b; xdd; xbf; x8c; xee; x48; x2a; x40; x22; x84; xe6; xd5; xb7; x11; x73; x77; x15; xb3; xd1; xe2; x80; x26; x44];
   [x00; x63; xc6; xa5; x91; xf2; x57; x34; x3f; x5c; xf9; x9a; xae; xcd; x68; x0b; x7e; x1d; xb8; xdb; xef; x8c; x29; x4a; x41; x22; x87; xe4; xd0; xb3; x16; x75; xfc; x9f; x3a; x59; x6d; x0e; xab; xc8; xc3; xa0; x05; x66; x52; x31; x94; xf7; x82; xe1; x44; x27; x13; x70; xd5; xb6; xbd; xde; x7b; x18; x2c; x4f; xea; x89; xe5; x86; x23; x40; x74; x17; xb2; xd1; xda; xb9; x1c; x7f; x4b; x28; x8d; xee; x9b; xf8; x5d; x3e; x0a; x69; xcc; xaf; xa4; xc7; x62; x01; x35; x56; xf3; x90; x19; x7a; xdf; xbc; x88; xeb; x4e; x2d; x26; x45; xe0; x83; xb7; xd4; x71; x12; x67; x04; xa1; xc2; xf6; x95; x30; x53; x58; x3b; x9e; xfd; xc9; xaa; x0f; x6c; xd7; xb4; x11; x72; x46; x25; x80; xe3; xe8; x8b; x2e; x4d; x79; x1a; xbf; xdc; xa9; xca; x6f; x0c; x38; x5b; xfe; x9d; x96; xf5; x50; x33; x07; x64; xc1; xa2; x2b; x48; xed; x8e; xba; xd9; x7c; x1f; x14; x77; xd2; xb1; x85; xe6; x43; x20; x55; x36; x93; xf0; xc4; xa7; x02; x61; x6a; x09; xac; xcf; xfb; x98; x3d; x5e; x32; x51; xf4; x97; xa3; xc0; x65; x06; x0d; x6e; xcb; xa8; x9c; xff; x5a; x39; x4c; x2f; x8a; xe9; xdd; xbe; x1b; x78; x73; x10; xb5; xd6; xe2; x81; x24; x47; xce; xad; x08; x6b; x5f; x3c; x99; xfa; xf1; x92; x37; x54; x60; x03; xa6; xc5; xb0; xd3; x76; x15; x21; x42; xe7; x84; x8f; xec; x49; x2a; x1e; x7d; xd8; xbb];
   [x00; x64; xc8; xac; x8d; xe9; x45; x21; x07; x63; xcf; xab; x8a; xee; x42; x26; x0e; x6a; xc6; xa2; x83; xe7; x4b; x2f; x09; x6d; xc1; xa5; x84; xe0; x4c; x28; x1c; x78; xd4; xb0; x91; xf5; x59; x3d; x1b; x7f; xd3; xb7; x96; xf2; x5e; x3a; x12; x76; xda; xbe; x9f; xfb; x57; x33; x15; x71; xdd; xb9; x98; xfc; x50; x34; x38; x5c; xf0; x94; xb5; xd1; x7d; x19; x3f; x5b; xf7; x93; xb2; xd6; x7a; x1e; x36; x52; xfe; x9a; xbb; xdf; x73; x17; x31; x55; xf9; x9d; xbc; xd8; x74; x10; x24; x40; xec; x88; xa9; xcd; x61; x05; x23; x47; xeb; x8f; xae; xca; x66; x02; x2a; x4e; xe2; x86; xa7; xc3; x6f; x0b; x2d; x49; xe5; x81; xa0; xc4; x68; x0c; x70; x14; xb8; xdc; xfd; x99; x35; x51; x77; x13; xbf; xdb; xfa; x9e; x32; x56; x7e; x1a; xb6; xd2; xf3; x97; x3b; x5f; x79; x1d; xb1; xd5; xf4; x90; x3c; x58; x6c; x08; xa4; xc0; xe1; x85; x29; x4d; x6b; x0f; xa3; xc7; xe6; x82; x2e; x4a; x62; x06; xaa; xce; xef; x8b; x27; x43; x65; x01; xad; xc9; xe8; x8c; x20; x44; x48; x2c; x80; xe4; xc5; xa1; x0d; x69; x4f; x2b; x87; xe3; xc2; xa6; x0a; x6e; x46; x22; x8e; xea; xcb; xaf; x03; x67; x41; x25; x89; xed; xcc; xa8; x04; x60; x54; x30; x9c; xf8; xd9; xbd; x11; x75; x53; x37; x9b; xff; xde; xba; x16; x72; x5a; x3e; x92; xf6; xd7; xb3; x1f; x7b; x5d; x39; x95; xf1; xd0; xb4; x18; x7c];
   [x00; x65; xca; xaf; x89; xec; x43; x26; x0f; x6a; xc5; xa0; x86; xe3; x4c; x29; x1e; x7b; xd4; xb1; x97; xf2; x5d; x38; x11; x74; xdb; xbe; x98; xfd; x52; x37; x3c; x59; xf6; x93; xb5; xd0; x7f; x1a; x33; x56; xf9; x9c; xba; xdf; x70; x15; x22; x47; xe8; x8d; xab; xce; x61; x04; x2d; x48; xe7; x82; xa4; xc1; x6e; x0b; x78; x1d; xb2; xd7; xf1; x94; x3b; x5e; x77; x12; xbd; xd8; xfe; x9b; x34; x51; x66; x03; xac; xc9; xef; x8a; x25; x40; x69; x0c; xa3; xc6; xe0; x85; x2a; x4f; x44; x21; x8e; xeb; xcd; xa8; x07; x62; x4b; x2e; x81; xe4; xc2; xa7; x08; x6d; x5a; x3f; x90; xf5; xd3; xb6; x19; x7c; x55; x30; x9f; xfa; xdc; xb9; x16; x73; xf0; x95; x3a; x5f; x79; x1c; xb3; xd6; xff; x9a; x35; x50; x76; x13; xbc; xd9; xee; x8b; x24; x41; x67; x02; xad; xc8; xe1; x84; x2b; x4e; x68; x0d; xa2; xc7; xcc; xa9; x06; x63; x45; x20; x8f; xea; xc3; xa6; x09; x6c; x4a; x2f; x80; xe5; xd2; xb7; x18; x7d; x5b; x3e; x91; xf4; xdd; xb8; x17; x72; x54; x31; x9e; xfb; x88; xed; x42; x27; x01; x64; xcb; xae; x87; xe2; x4d; x28; x0e; x6b; xc4; xa1; x96; xf3; x5c; x39; x1f; x7a; xd5; xb0; x99; xfc; x53; x36; x10; x75; xda; xbf; xb4; xd1; x7e; x1b; x3d; x58; xf7; x92; xbb; xde; x71; x14; x32; x57; xf8; x9d; xaa; xcf; x60; x05; x23; x46; xe9; x8c; xa5; xc0; x6f; x0a; x2c; x49; xe6; x83];
   [x00; x66; xcc; xaa; x85; xe3; x49; x2f; x17; x71; xdb; xbd; x92; xf4; x5e; x38; x2e; x48; xe2; x84; xab; xcd; x67; x01; x39; x5f; xf5; x93; xbc; xda; x70; x16; x5c; x3a; x90; xf6; xd9; xbf; x15; x73; x4b; x2d; x87; xe1; xce; xa8; x02; x64; x72; x14; xbe; xd8; xf7; x91; x3b; x5d; x65; x03; xa9; xcf; xe0; x86; x2c; x4a; xb8; xde; x74; x12; x3d; x5b; xf1; x97; xaf; xc9; x63; x05; x2a; x4c; xe6; x80; x96; xf0; x5a; x3c; x13; x75; xdf; xb9; x81; xe7; x4d; x2b; x04; x62; xc8; xae; xe4; x82; x28; x4e; x61; x07; xad; xcb; xf3; x95; x3f; x59; x76; x10; xba; xdc; xca; xac; x06; x60; x4f; x29; x83; xe5; xdd; xbb; x11; x77; x58; x3e; x94; xf2; x6d; x0b; xa1; xc7; xe8; x8e; x24; x42; x7a; x1c; xb6; xd0; xff; x99; x33; x55; x43; x25; x8f; xe9; xc6; xa0; x0a; x6c; x54; x32; x98; xfe; xd1; xb7; x1d; x7b; x31; x57; xfd; x9b; xb4; xd2; x78; x1e; x26; x40; xea; x8c; xa3; xc5; x6f; x09; x1f; x79; xd3; xb5; x9a; xfc; x56; x30; x08; x6e; xc4; xa2; x8d; xeb; x41; x27; xd5; xb3; x19; x7f; x50; x36; x9c; xfa; xc2; xa4; x0e; x68; x47; x21; x8b; xed; xfb; x9d; x37; x51; x7e; x18; xb2; xd4; xec; x8a; x20; x46; x69; x0f; xa5; xc3; x89; xef; x45; x23; x0c; x6a; xc0; xa6; x9e; xf8; x52; x34; x1b; x7d; xd7; xb1; xa7; xc1; x6b; x0d; x22; x44; xee; x88; xb0; xd6; x7c; x1a; x35; x53; xf9; x9f];
   [x00; x67; xce; xa9; x81; xe6; x4f; x28; x1f; x78; xd1; xb6; x9e; xf9; x50; x37; x3e; x59; xf0; x97; xbf; xd8; x71; x16; x21; x46; xef; x88; xa0; xc7; x6e; x09; x7c; x1b; xb2; xd5; xfd; x9a; x33; x54; x63; x04; xad; xca; xe2; x85; x2c; x4b; x42; x25; x8c; xeb; xc3; xa4; x0d; x6a; x5d; x3a; x93; xf4; xdc; xbb; x12; x75; xf8; x9f; x36; x51; x79; x1e; xb7; xd0; xe7; x80; x29; x4e; x66; x01; xa8; xcf; xc6; xa1; x08; x6f; x47; x20; x89; xee; xd9; xbe; x17; x70; x58; x3f; x96; xf1; x84; xe3; x4a; x2d; x05; x62; xcb; xac; x9b; xfc; x55; x32; x1a; x7d; xd4; xb3; xba; xdd; x74; x13; x3b; x5c; xf5; x92; xa5; xc2; x6b; x0c; x24; x43; xea; x8d; xed; x8a; x23; x44; x6c; x0b; xa2; xc5; xf2; x95; x3c; x5b; x73; x14; xbd; xda; xd3; xb4; x1d; x7a; x52; x35; x9c; xfb; xcc; xab; x02; x65; x4d; x2a; x83; xe4; x91; xf6; x5f; x38; x10; x77; xde; xb9; x8e; xe9; x40; x27; x0f; x68; xc1; xa6; xaf; xc8; x61; x06; x2e; x49; xe0; x87; xb0; xd7; x7e; x19; x31; x56; xff; x98; x15; x72; xdb; xbc; x94; xf3; x5a; x3d; x0a; x6d; xc4; xa3; x8b; xec; x45; x22; x2b; x4c; xe5; x82; xaa; xcd; x64; x03; x34; x53; xfa; x9d; xb5; xd2; x7b; x1c; x69; x0e; xa7; xc0; xe8; x8f; x26; x41; x76; x11; xb8; xdf; xf7; x90; x39; x5e; x57; x30; x99; xfe; xd6; xb1; x18; x7f; x48; x2f; x86; xe1; xc9; xae; x07; x60];
   [x00; x68; xd0; xb8; xbd; xd5; x6d; x05; x67; x0f; xb7; xdf; xda; xb2; x0a; x62; xce; xa6; x1e; x76; x73; x1b; xa3; xcb; xa9; xc1; x79; x11; x14; x7c; xc4; xac; x81; xe9; x51; x39; x3c; x54; xec; x84; xe6; x8e; x36; x5e; x5b; x33; x8b; xe3; x4f; x27; x9f; xf7; xf2; x9a; x22; x4a; x28; x40; xf8; x90; x95; xfd; x45; x2d; x1f; x77; xcf; xa7; xa2; xca; x72; x1a; x78; x10; xa8; xc0; xc5; xad; x15; x7d; xd1; xb9; x01; x69; x6c; x04; xbc; xd4; xb6; xde; x66; x0e; x0b; x63; xdb; xb3; x9e; xf6; x4e; x26; x23; x4b; xf3; x9b; xf9; x91; x29; x41; x44; x2c; x94; xfc; x50; x38; x80; xe8; xed; x85; x3d; x55; x37; x5f; xe7; x8f; x8a; xe2; x5a; x32; x3e; x56; xee; x86; x83; xeb; x53; x3b; x59; x31; x89; xe1; xe4; x8c; x34; x5c; xf0; x98; x20; x48; x4d; x25; x9d; xf5; x97; xff; x47; x2f; x2a; x42; xfa; x92; xbf; xd7; x6f; x07; x02; x6a; xd2; xba; xd8; xb0; x08; x60; x65; x0d; xb5; xdd; x71; x19; xa1; xc9; xcc; xa4; x1c; x74; x16; x7e; xc6; xae; xab; xc3; x7b; x13; x21; x49; xf1; x99; x9c; xf4; x4c; x24; x46; x2e; x96; xfe; xfb; x93; x2b; x43; xef; x87; x3f; x57; x52; x3a; x82; xea; x88; xe0; x58; x30; x35; x5d; xe5; x8d; xa0; xc8; x70; x18; x1d; x75; xcd; xa5; xc7; xaf; x17; x7f; x7a; x12; xaa; xc2; x6e; x06; xbe; xd6; xd3; xbb; x03; x6b; x09; x61; xd9; xb1; xb4; xdc; x64; x0c];
   [x00; x69; xd2; xbb; xb9; xd0; x6b; x02; x6f; x06; xbd; xd4; xd6; xbf; x04; x6d; xde; xb7; x0c; x65; x67; x0e; xb5; xdc; xb1; xd8; x63; x0a; x08; x61; xda; xb3; xa1; xc8; x73; x1a; x18; x71; xca; xa3; xce; xa7; x1c; x75; x77; x1e; xa5; xcc; x7f; x16; xad; xc4; xc6; xaf; x14; x7d; x10; x79; xc2; xab; xa9; xc0; x7b; x12; x5f; x36; x8d; xe4; xe6; x8f; x34; x5d; x30; x59; xe2; x8b; x89; xe0; x5b; x32; x81; xe8; x53; x3a; x38; x51; xea; x83; xee; x87; x3c; x55; x57; x3e; x85; xec; xfe; x97; x2c; x45; x47; x2e; x95; xfc; x91; xf8; x43; x2a; x28; x41; xfa; x93; x20; x49; xf2; x9b; x99; xf0; x4b; x22; x4f; x26; x9d; xf4; xf6; x9f; x24; x4d; xbe; xd7; x6c; x05; x07; x6e; xd5; xbc; xd1; xb8; x03; x6a; x68; x01; xba; xd3; x60; x09; xb2; xdb; xd9; xb0; x0b; x62; x0f; x66; xdd; xb4; xb6; xdf; x64; x0d; x1f; x76; xcd; xa4; xa6; xcf; x74; x1d; x70; x19; xa2; xcb; xc9; xa0; x1b; x72; xc1; xa8; x13; x7a; x78; x11; xaa; xc3; xae; xc7; x7c; x15; x17; x7e; xc5; xac; xe1; x88; x33; x5a; x58; x31; x8a; xe3; x8e; xe7; x5c; x35; x37; x5e; xe5; x8c; x3f; x56; xed; x84; x86; xef; x54; x3d; x50; x39; x82; xeb; xe9; x80; x3b; x52; x40; x29; x92; xfb; xf9; x90; x2b; x42; x2f; x46; xfd; x94; x96; xff; x44; x2d; x9e; xf7; x4c; x25; x27; x4e; xf5; x9c; xf1; x98; x23; x4a; x48; x21; x9a; xf3];
   [x00; x6a; xd4; xbe; xb5; xdf; x61; x0b; x77; x1d; xa3; xc9; xc2; xa8; x16; x7c; xee; x84; x3a; x50; x5b; x31; x8f; xe5; x99; xf3; x4d; x27; x2c; x46; xf8; x92; xc1; xab; x15; x7f; x74; x1e; xa0; xca; xb6; xdc; x62; x08; x03; x69; xd7; xbd; x2f; x45; xfb; x91; x9a; xf0; x4e; x24; x58; x32; x8c; xe6; xed; x87; x39; x53; x9f; xf5; x4b; x21; x2a; x40; xfe; x94; xe8; x82; x3c; x56; x5d; x37; x89; xe3; x71; x1b; xa5; xcf; xc4; xae; x10; x7a; x06; x6c; xd2; xb8; xb3; xd9; x67; x0d; x5e; x34; x8a; xe0; xeb; x81; x3f; x55; x29; x43; xfd; x97; x9c; xf6; x48; x22; xb0; xda; x64; x0e; x05; x6f; xd1; xbb; xc7; xad; x13; x79; x72; x18; xa6; xcc; x23; x49; xf7; x9d; x96; xfc; x42; x28; x54; x3e; x80; xea; xe1; x8b; x35; x5f; xcd; xa7; x19; x73; x78; x12; xac; xc6; xba; xd0; x6e; x04; x0f; x65; xdb; xb1; xe2; x88; x36; x5c; x57; x3d; x83; xe9; x95; xff; x41; x2b; x20; x4a; xf4; x9e; x0c; x66; xd8; xb2; xb9; xd3; x6d; x07; x7b; x11; xaf; xc5; xce; xa4; x1a; x70; xbc; xd6; x68; x02; x09; x63; xdd; xb7; xcb; xa1; x1f; x75; x7e; x14; xaa; xc0; x52; x38; x86; xec; xe7; x8d; x33; x59; x25; x4f; xf1; x9b; x90; xfa; x44; x2e; x7d; x17; xa9; xc3; xc8; xa2; x1c; x76; x0a; x60; xde; xb4; xbf; xd5; x6b; x01; x93; xf9; x47; x2d; x26; x4c; xf2; x98; xe4; x8e; x30; x5a; x51; x3b; x85; xef];
   [x00; x6b; xd6; xbd; xb1; xda; x67; x0c; x7f; x14; xa9; xc2; xce; xa5; x18; x73; xfe; x95; x28; x43; x4f; x24; x99; xf2; x81; xea; x57; x3c; x30; x5b; xe6; x8d; xe1; x8a; x37; x5c; x50; x3b; x86; xed; x9e; xf5; x48; x23; x2f; x44; xf9; x92; x1f; x74; xc9; xa2; xae; xc5; x78; x13; x60; x0b; xb6; xdd; xd1; xba; x07; x6c; xdf; xb4; x09; x62; x6e; x05; xb8; xd3; xa0; xcb; x76; x1d; x11; x7a; xc7; xac; x21; x4a; xf7; x9c; x90; xfb; x46; x2d; x5e; x35; x88; xe3; xef; x84; x39; x52; x3e; x55; xe8; x83; x8f; xe4; x59; x32; x41; x2a; x97; xfc; xf0; x9b; x26; x4d; xc0; xab; x16; x7d; x71; x1a; xa7; xcc; xbf; xd4; x69; x02; x0e; x65; xd8; xb3; xa3; xc8; x75; x1e; x12; x79; xc4; xaf; xdc; xb7; x0a; x61; x6d; x06; xbb; xd0; x5d; x36; x8b; xe0; xec; x87; x3a; x51; x22; x49; xf4; x9f; x93; xf8; x45; x2e; x42; x29; x94; xff; xf3; x98; x25; x4e; x3d; x56; xeb; x80; x8c; xe7; x5a; x31; xbc; xd7; x6a; x01; x0d; x66; xdb; xb0; xc3; xa8; x15; x7e; x72; x19; xa4; xcf; x7c; x17; xaa; xc1; xcd; xa6; x1b; x70; x03; x68; xd5; xbe; xb2; xd9; x64; x0f; x82; xe9; x54; x3f; x33; x58; xe5; x8e; xfd; x96; x2b; x40; x4c; x27; x9a; xf1; x9d; xf6; x4b; x20; x2c; x47; xfa; x91; xe2; x89; x34; x5f; x53; x38; x85; xee; x63; x08; xb5; xde; xd2; xb9; x04; x6f; x1c; x77; xca; xa1; xad; xc6; x7b; x10];
   [x00; x6c; xd8; xb4; xad; xc1; x75; x19; x47; x2b; x9f; xf3; xea; x86; x32; x5e; x8e; xe2; x56; x3a; x23; x4f; xfb; x97; xc9; xa5; x11; x7d; x64; x08; xbc; xd0; x01; x6d; xd9; xb5; xac; xc0; x74; x18; x46; x2a; x9e; xf2; xeb; x87; x33; x5f; x8f; xe3; x57; x3b; x22; x4e; xfa; x96; xc8; xa4; x10; x7c; x65; x09; xbd; xd1; x02; x6e; xda; xb6; xaf; xc3; x77; x1b; x45; x29; x9d; xf1; xe8; x84; x30; x5c; x8c; xe0; x54; x38; x21; x4d; xf9; x95; xcb; xa7; x13; x7f; x66; x0a; xbe; xd2; x03; x6f; xdb; xb7; xae; xc2; x76; x1a; x44; x28; x9c; xf0; xe9; x85; x31; x5d; x8d; xe1; x55; x39; x20; x4c; xf8; x94; xca; xa6; x12; x7e; x67; x0b; xbf; xd3; x04; x68; xdc; xb0; xa9; xc5; x71; x1d; x43; x2f; x9b; xf7; xee; x82; x36; x5a; x8a; xe6; x52; x3e; x27; x4b; xff; x93; xcd; xa1; x15; x79; x60; x0c; xb8; xd4; x05; x69; xdd; xb1; xa8; xc4; x70; x1c; x42; x2e; x9a; xf6; xef; x83; x37; x5b; x8b; xe7; x53; x3f; x26; x4a; xfe; x92; xcc; xa0; x14; x78; x61; x0d; xb9; xd5; x06; x6a; xde; xb2; xab; xc7; x73; x1f; x41; x2d; x99; xf5; xec; x80; x34; x58; x88; xe4; x50; x3c; x25; x49; xfd; x91; xcf; xa3; x17; x7b; x62; x0e; xba; xd6; x07; x6b; xdf; xb3; xaa; xc6; x72; x1e; x40; x2c; x98; xf4; xed; x81; x35; x59; x89; xe5; x51; x3d; x24; x48; xfc; x90; xce; xa2; x16; x7a; x63; x0f; xbb; xd7];
   [x00; x6d; xda; xb7; xa9; xc4; x73; x1e; x4f; x22; x95; xf8; xe6; x8b; x3c; x51; x9e; xf3; x44; x29; x37; x5a; xed; x80; xd1; xbc; x0b; x66; x78; x15; xa2; xcf; x21; x4c; xfb; x96; x88; xe5; x52; x3f; x6e; x03; xb4; xd9; xc7; xaa; x1d; x70; xbf; xd2; x65; x08; x16; x7b; xcc; xa1; xf0; x9d; x2a; x47; x59; x34; x83; xee; x42; x2f; x98; xf5; xeb; x86; x31; x5c; x0d; x60; xd7; xba; xa4; xc9; x7e; x13; xdc; xb1; x06; x6b; x75; x18; xaf; xc2; x93; xfe; x49; x24; x3a; x57; xe0; x8d; x63; x0e; xb9; xd4; xca; xa7; x10; x7d; x2c; x41; xf6; x9b; x85; xe8; x5f; x32; xfd; x90; x27; x4a; x54; x39; x8e; xe3; xb2; xdf; x68; x05; x1b; x76; xc1; xac; x84; xe9; x5e; x33; x2d; x40; xf7; x9a; xcb; xa6; x11; x7c; x62; x0f; xb8; xd5; x1a; x77; xc0; xad; xb3; xde; x69; x04; x55; x38; x8f; xe2; xfc; x91; x26; x4b; xa5; xc8; x7f; x12; x0c; x61; xd6; xbb; xea; x87; x30; x5d; x43; x2e; x99; xf4; x3b; x56; xe1; x8c; x92; xff; x48; x25; x74; x19; xae; xc3; xdd; xb0; x07; x6a; xc6; xab; x1c; x71; x6f; x02; xb5; xd8; x89; xe4; x53; x3e; x20; x4d; xfa; x97; x58; x35; x82; xef; xf1; x9c; x2b; x46; x17; x7a; xcd; xa0; xbe; xd3; x64; x09; xe7; x8a; x3d; x50; x4e; x23; x94; xf9; xa8; xc5; x72; x1f; x01; x6c; xdb; xb6; x79; x14; xa3; xce; xd0; xbd; x0a; x67; x36; x5b; xec; x81; x9f; xf2; x45; x28];
   [x00; x6e; xdc; xb2; xa5; xcb; x79; x17; x57; x39; x8b; xe5; xf2; x9c; x2e; x40; xae; xc0; x72; x1c; x0b; x65; xd7; xb9; xf9; x97; x25; x4b; x5c; x32; x80; xee; x41; x2f; x9d; xf3; xe4; x8a; x38; x56; x16; x78; xca; xa4; xb3; xdd; x6f; x01; xef; x81; x33; x5d; x4a; x24; x96; xf8; xb8; xd6; x64; x0a; x1d; x73; xc1; xaf; x82; xec; x5e; x30; x27; x49; xfb; x95; xd5; xbb; x09; x67; x70; x1e; xac; xc2; x2c; x42; xf0; x9e; x89; xe7; x55; x3b; x7b; x15; xa7; xc9; xde; xb0; x02; x6c; xc3; xad; x1f; x71; x66; x08; xba; xd4; x94; xfa; x48; x26; x31; x5f; xed; x83; x6d; x03; xb1; xdf; xc8; xa6; x14; x7a; x3a; x54; xe6; x88; x9f; xf1; x43; x2d; x19; x77; xc5; xab; xbc; xd2; x60; x0e; x4e; x20; x92; xfc; xeb; x85; x37; x59; xb7; xd9; x6b; x05; x12; x7c; xce; xa0; xe0; x8e; x3c; x52; x45; x2b; x99; xf7; x58; x36; x84; xea; xfd; x93; x21; x4f; x0f; x61; xd3; xbd; xaa; xc4; x76; x18; xf6; x98; x2a; x44; x53; x3d; x8f; xe1; xa1; xcf; x7d; x13; x04; x6a; xd8; xb6; x9b; xf5; x47; x29; x3e; x50; xe2; x8c; xcc; xa2; x10; x7e; x69; x07; xb5; xdb; x35; x5b; xe9; x87; x90; xfe; x4c; x22; x62; x0c; xbe; xd0; xc7; xa9; x1b; x75; xda; xb4; x06; x68; x7f; x11; xa3; xcd; x8d; xe3; x51; x3f; x28; x46; xf4; x9a; x74; x1a; xa8; xc6; xd1; xbf; x0d; x63; x23; x4d; xff; x91; x86; xe8; x5a; x34];
   [x00; x6f; xde; xb1; xa1; xce; x7f; x10; x5f; x30; x81; xee; xfe; x91; x20; x4f; xbe; xd1; x60; x0f; x1f; x70; xc1; xae; xe1; x8e; x3f; x50; x40; x2f; x9e; xf1; x61; x0e; xbf; xd0; xc0; xaf; x1e; x71; x3e; x51; xe0; x8f; x9f; xf0; x41; x2e; xdf; xb0; x01; x6e; x7e; x11; xa0; xcf; x80; xef; x5e; x31; x21; x4e; xff; x90; xc2; xad; x1c; x73; x63; x0c; xbd; xd2; x9d; xf2; x43; x2c; x3c; x53; xe2; x8d; x7c; x13; xa2; xcd; xdd; xb2; x03; x6c; x23; x4c; xfd; x92; x82; xed; x5c; x33; xa3; xcc; x7d; x12; x02; x6d; xdc; xb3; xfc; x93; x22; x4d; x5d; x32; x83; xec; x1d; x72; xc3; xac; xbc; xd3; x62; x0d; x42; x2d; x9c; xf3; xe3; x8c; x3d; x52; x99; xf6; x47; x28; x38; x57; xe6; x89; xc6; xa9; x18; x77; x67; x08; xb9; xd6; x27; x48; xf9; x96; x86; xe9; x58; x37; x78; x17; xa6; xc9; xd9; xb6; x07; x68; xf8; x97; x26; x49; x59; x36; x87; xe8; xa7; xc8; x79; x16; x06; x69; xd8; xb7; x46; x29; x98; xf7; xe7; x88; x39; x56; x19; x76; xc7; xa8; xb8; xd7; x66; x09; x5b; x34; x85; xea; xfa; x95; x24; x4b; x04; x6b; xda; xb5; xa5; xca; x7b; x14; xe5; x8a; x3b; x54; x44; x2b; x9a; xf5; xba; xd5; x64; x0b; x1b; x74; xc5; xaa; x3a; x55; xe4; x8b; x9b; xf4; x45; x2a; x65; x0a; xbb; xd4; xc4; xab; x1a; x75; x84; xeb; x5a; x35; x25; x4a; xfb; x94; xdb; xb4; x05; x6a; x7a; x15; xa4; xcb];
   [x00; x70; xe0; x90; xdd; xad; x3d; x4d; xa7; xd7; x47; x37; x7a; x0a; x9a; xea; x53; x23; xb3; xc3; x8e; xfe; x6e; x1e; xf4; x84; x14; x64; x29; x59; xc9; xb9; xa6; xd6; x46; x36; x7b; x0b; x9b; xeb; x01; x71; xe1; x91; xdc; xac; x3c; x4c; xf5; x85; x15; x65; x28; x58; xc8; xb8; x52; x22; xb2; xc2; x8f; xff; x6f; x1f; x51; x21; xb1; xc1; x8c; xfc; x6c; x1c; xf6; x86; x16; x66; x2b; x5b; xcb; xbb; x02; x72; xe2; x92; xdf; xaf; x3f; x4f; xa5; xd5; x45; x35; x78; x08; x98; xe8; xf7; x87; x17; x67; x2a; x5a; xca; xba; x50; x20; xb0; xc0; x8d; xfd; x6d; x1d; xa4; xd4; x44; x34; x79; x09; x99; xe9; x03; x73; xe3; x93; xde; xae; x3e; x4e; xa2; xd2; x42; x32; x7f; x0f; x9f; xef; x05; x75; xe5; x95; xd8; xa8; x38; x48; xf1; x81; x11; x61; x2c; x5c; xcc; xbc; x56; x26; xb6; xc6; x8b; xfb; x6b; x1b; x04; x74; xe4; x94; xd9; xa9; x39; x49; xa3; xd3; x43; x33; x7e; x0e; x9e; xee; x57; x27; xb7; xc7; x8a; xfa; x6a; x1a; xf0; x80; x10; x60; x2d; x5d; xcd; xbd; xf3; x83; x13; x63; x2e; x5e; xce; xbe; x54; x24; xb4; xc4; x89; xf9; x69; x19; xa0; xd0; x40; x30; x7d; x0d; x9d; xed; x07; x77; xe7; x97; xda; xaa; x3a; x4a; x55; x25; xb5; xc5; x88; xf8; x68; x18; xf2; x82; x12; x62; x2f; x5f; xcf; xbf; x06; x76; xe6; x96; xdb; xab; x3b; x4b; xa1; xd1; x41; x31; x7c; x0c; x9c; xec];
   [x00; x71; xe2; x93; xd9; xa8; x3b; x4a; xaf; xde; x4d; x3c; x76; x07; x94; xe5; x43; x32; xa1; xd0; x9a; xeb; x78; x09; xec; x9d; x0e; x7f; x35; x44; xd7; xa6; x86; xf7; x64; x15; x5f; x2e; xbd; xcc; x29; x58; xcb; xba; xf0; x81; x12; x63; xc5; xb4; x27; x56; x1c; x6d; xfe; x8f; x6a; x1b; x88; xf9; xb3; xc2; x51; x20; x11; x60; xf3; x82; xc8; xb9; x2a; x5b; xbe; xcf; x5c; x2d; x67; x16; x85; xf4; x52; x23; xb0; xc1; x8b; xfa; x69; x18; xfd; x8c; x1f; x6e; x24; x55; xc6; xb7; x97; xe6; x75; x04; x4e; x3f; xac; xdd; x38; x49; xda; xab; xe1; x90; x03; x72; xd4; xa5; x36; x47; x0d; x7c; xef; x9e; x7b; x0a; x99; xe8; xa2; xd3; x40; x31; x22; x53; xc0; xb1; xfb; x8a; x19; x68; x8d; xfc; x6f; x1e; x54; x25; xb6; xc7; x61; x10; x83; xf2; xb8; xc9; x5a; x2b; xce; xbf; x2c; x5d; x17; x66; xf5; x84; xa4; xd5; x46; x37; x7d; x0c; x9f; xee; x0b; x7a; xe9; x98; xd2; xa3; x30; x41; xe7; x96; x05; x74; x3e; x4f; xdc; xad; x48; x39; xaa; xdb; x91; xe0; x73; x02; x33; x42; xd1; xa0; xea; x9b; x08; x79; x9c; xed; x7e; x0f; x45; x34; xa7; xd6; x70; x01; x92; xe3; xa9; xd8; x4b; x3a; xdf; xae; x3d; x4c; x06; x77; xe4; x95; xb5; xc4; x57; x26; x6c; x1d; x8e; xff; x1a; x6b; xf8; x89; xc3; xb2; x21; x50; xf6; x87; x14; x65; x2f; x5e; xcd; xbc; x59; x28; xbb; xca; x80; xf1; x62; x13];
   [x00; x72; xe4; x96; xd5; xa7; x31; x43; xb7; xc5; x53; x21; x62; x10; x86; xf4; x73; x01; x97; xe5; xa6; xd4; x42; x30; xc4; xb6; x20; x52; x11; x63; xf5; x87; xe6; x94; x02; x70; x33; x41; xd7; xa5; x51; x23; xb5; xc7; x84; xf6; x60; x12; x95; xe7; x71; x03; x40; x32; xa4; xd6; x22; x50; xc6; xb4; xf7; x85; x13; x61; xd1; xa3; x35; x47; x04; x76; xe0; x92; x66; x14; x82; xf0; xb3; xc1; x57; x25; xa2; xd0; x46; x34; x77; x05; x93; xe1; x15; x67; xf1; x83; xc0; xb2; x24; x56; x37; x45; xd3; xa1; xe2; x90; x06; x74; x80; xf2; x64; x16; x55; x27; xb1; xc3; x44; x36; xa0; xd2; x91; xe3; x75; x07; xf3; x81; x17; x65; x26; x54; xc2; xb0; xbf; xcd; x5b; x29; x6a; x18; x8e; xfc; x08; x7a; xec; x9e; xdd; xaf; x39; x4b; xcc; xbe; x28; x5a; x19; x6b; xfd; x8f; x7b; x09; x9f; xed; xae; xdc; x4a; x38; x59; x2b; xbd; xcf; x8c; xfe; x68; x1a; xee; x9c; x0a; x78; x3b; x49; xdf; xad; x2a; x58; xce; xbc; xff; x8d; x1b; x69; x9d; xef; x79; x0b; x48; x3a; xac; xde; x6e; x1c; x8a; xf8; xbb; xc9; x5f; x2d; xd9; xab; x3d; x4f; x0c; x7e; xe8; x9a; x1d; x6f; xf9; x8b; xc8; xba; x2c; x5e; xaa; xd8; x4e; x3c; x7f; x0d; x9b; xe9; x88; xfa; x6c; x1e; x5d; x2f; xb9; xcb; x3f; x4d; xdb; xa9; xea; x98; x0e; x7c; xfb; x89; x1f; x6d; x2e; x5c; xca; xb8; x4c; x3e; xa8; xda; x99; xeb; x7d; x0f];
   [x00; x73; xe6; x95; xd1; xa2; x37; x44; xbf; xcc; x59; x2a; x6e; x1d; x88; xfb; x63; x10; x85; xf6; xb2; xc1; x54; x27; xdc; xaf; x3a; x49; x0d; x7e; xeb; x98; xc6; xb5; x20; x53; x17; x64; xf1; x82; x79; x0a; x9f; xec; xa8; xdb; x4e; x3d; xa5; xd6; x43; x30; x74; x07; x92; xe1; x1a; x69; xfc; x8f; xcb; xb8; x2d; x5e; x91; xe2; x77; x04; x40; x33; xa6; xd5; x2e; x5d; xc8; xbb; xff; x8c; x19; x6a; xf2; x81; x14; x67; x23; x50; xc5; xb6; x4d; x3e; xab; xd8; x9c; xef; x7a; x09; x57; x24; xb1; xc2; x86; xf5; x60; x13; xe8; x9b; x0e; x7d; x39; x4a; xdf; xac; x34; x47; xd2; xa1; xe5; x96; x03; x70; x8b; xf8; x6d; x1e; x5a; x29; xbc; xcf; x3f; x4c; xd9; xaa; xee; x9d; x08; x7b; x80; xf3; x66; x15; x51; x22; xb7; xc4; x5c; x2f; xba; xc9; x8d; xfe; x6b; x18; xe3; x90; x05; x76; x32; x41; xd4; xa7; xf9; x8a; x1f; x6c; x28; x5b; xce; xbd; x46; x35; xa0; xd3; x97; xe4; x71; x02; x9a; xe9; x7c; x0f; x4b; x38; xad; xde; x25; x56; xc3; xb0; xf4; x87; x12; x61; xae; xdd; x48; x3b; x7f; x0c; x99; xea; x11; x62; xf7; x84; xc0; xb3; x26; x55; xcd; xbe; x2b; x58; x1c; x6f; xfa; x89; x72; x01; x94; xe7; xa3; xd0; x45; x36; x68; x1b; x8e; xfd; xb9; xca; x5f; x2c; xd7; xa4; x31; x42; x06; x75; xe0; x93; x0b; x78; xed; x9e; xda; xa9; x3c; x4f; xb4; xc7; x52; x21; x65; x16; x83; xf0];
   [x00; x74; xe8; x9c; xcd; xb9; x25; x51; x87; xf3; x6f; x1b; x4a; x3e; xa2; xd6; x13; x67; xfb; x8f; xde; xaa; x36; x42; x94; xe0; x7c; x08; x59; x2d; xb1; xc5; x26; x52; xce; xba; xeb; x9f; x03; x77; xa1; xd5; x49; x3d; x6c; x18; x84; xf0; x35; x41; xdd; xa9; xf8; x8c; x10; x64; xb2; xc6; x5a; x2e; x7f; x0b; x97; xe3; x4c; x38; xa4; xd0; x81; xf5; x69; x1d; xcb; xbf; x23; x57; x06; x72; xee; x9a; x5f; x2b; xb7; xc3; x92; xe6; x7a; x0e; xd8; xac; x30; x44; x15; x61; xfd; x89; x6a; x1e; x82; xf6; xa7; xd3; x4f; x3b; xed; x99; x05; x71; x20; x54; xc8; xbc; x79; x0d; x91; xe5; xb4; xc0; x5c; x28; xfe; x8a; x16; x62; x33; x47; xdb; xaf; x98; xec; x70; x04; x55; x21; xbd; xc9; x1f; x6b; xf7; x83; xd2; xa6; x3a; x4e; x8b; xff; x63; x17; x46; x32; xae; xda; x0c; x78; xe4; x90; xc1; xb5; x29; x5d; xbe; xca; x56; x22; x73; x07; x9b; xef; x39; x4d; xd1; xa5; xf4; x80; x1c; x68; xad; xd9; x45; x31; x60; x14; x88; xfc; x2a; x5e; xc2; xb6; xe7; x93; x0f; x7b; xd4; xa0; x3c; x48; x19; x6d; xf1; x85; x53; x27; xbb; xcf; x9e; xea; x76; x02; xc7; xb3; x2f; x5b; x0a; x7e; xe2; x96; x40; x34; xa8; xdc; x8d; xf9; x65; x11; xf2; x86; x1a; x6e; x3f; x4b; xd7; xa3; x75; x01; x9d; xe9; xb8; xcc; x50; x24; xe1; x95; x09; x7d; x2c; x58; xc4; xb0; x66; x12; x8e; xfa; xab; xdf; x43; x37];
   [x00; x75; xea; x9f; xc9; xbc; x23; x56; x8f; xfa; x65; x10; x46; x33; xac; xd9; x03; x76; xe9; x9c; xca; xbf; x20; x55; x8c; xf9; x66; x13; x45; x30; xaf; xda; x06; x73; xec; x99; xcf; xba; x25; x50; x89; xfc; x63; x16; x40; x35; xaa; xdf; x05; x70; xef; x9a; xcc; xb9; x26; x53; x8a; xff; x60; x15; x43; x36; xa9; xdc; x0c; x79; xe6; x93; xc5; xb0; x2f; x5a; x83; xf6; x69; x1c; x4a; x3f; xa0; xd5; x0f; x7a; xe5; x90; xc6; xb3; x2c; x59; x80; xf5; x6a; x1f; x49; x3c; xa3; xd6; x0a; x7f; xe0; x95; xc3; xb6; x29; x5c; x85; xf0; x6f; x1a; x4c; x39; xa6; xd3; x09; x7c; xe3; x96; xc0; xb5; x2a; x5f; x86; xf3; x6c; x19; x4f; x3a; xa5; xd0; x18; x6d; xf2; x87; xd1; xa4; x3b; x4e; x97; xe2; x7d; x08; x5e; x2b; xb4; xc1; x1b; x6e; xf1; x84; xd2; xa7; x38; x4d; x94; xe1; x7e; x0b; x5d; x28; xb7; xc2; x1e; x6b; xf4; x81; xd7; xa2; x3d; x48; x91; xe4; x7b; x0e; x58; x2d; xb2; xc7; x1d; x68; xf7; x82; xd4; xa1; x3e; x4b; x92; xe7; x78; x0d; x5b; x2e; xb1; xc4; x14; x61; xfe; x8b; xdd; xa8; x37; x42; x9b; xee; x71; x04; x52; x27; xb8; xcd; x17; x62; xfd; x88; xde; xab; x34; x41; x98; xed; x72; x07; x51; x24; xbb; xce; x12; x67; xf8; x8d; xdb; xae; x31; x44; x9d; xe8; x77; x02; x54; x21; xbe; xcb; x11; x64; xfb; x8e; xd8; xad; x32; x47; x9e; xeb; x74; x01; x57; x22; xbd; xc8];
   [x00; x76; xec; x9a; xc5; xb3; x29; x5f; x97; xe1; x7b; x0d; x52; x24; xbe; xc8; x33; x45; xdf; xa9; xf6; x80; x1a; x6c; xa4; xd2; x48; x3e; x61; x17; x8d; xfb; x66; x10; x8a; xfc; xa3; xd5; x4f; x39; xf1; x87; x1d; x6b; x34; x42; xd8; xae; x55; x23; xb9; xcf; x90; xe6; x7c; x0a; xc2; xb4; x2e; x58; x07; x71; xeb; x9d; xcc; xba; x20; x56; x09; x7f; xe5; x93; x5b; x2d; xb7; xc1; x9e; xe8; x72; x04; xff; x89; x13; x65; x3a; x4c; xd6; xa0; x68; x1e; x84; xf2; xad; xdb; x41; x37; xaa; xdc; x46; x30; x6f; x19; x83; xf5; x3d; x4b; xd1; xa7; xf8; x8e; x14; x62; x99; xef; x75; x03; x5c; x2a; xb0; xc6; x0e; x78; xe2; x94; xcb; xbd; x27; x51; x85; xf3; x69; x1f; x40; x36; xac; xda; x12; x64; xfe; x88; xd7; xa1; x3b; x4d; xb6; xc0; x5a; x2c; x73; x05; x9f; xe9; x21; x57; xcd; xbb; xe4; x92; x08; x7e; xe3; x95; x0f; x79; x26; x50; xca; xbc; x74; x02; x98; xee; xb1; xc7; x5d; x2b; xd0; xa6; x3c; x4a; x15; x63; xf9; x8f; x47; x31; xab; xdd; x82; xf4; x6e; x18; x49; x3f; xa5; xd3; x8c; xfa; x60; x16; xde; xa8; x32; x44; x1b; x6d; xf7; x81; x7a; x0c; x96; xe0; xbf; xc9; x53; x25; xed; x9b; x01; x77; x28; x5e; xc4; xb2; x2f; x59; xc3; xb5; xea; x9c; x06; x70; xb8; xce; x54; x22; x7d; x0b; x91; xe7; x1c; x6a; xf0; x86; xd9; xaf; x35; x43; x8b; xfd; x67; x11; x4e; x38; xa2; xd4];
   [x00; x77; xee; x99; xc1; xb6; x2f; x58; x9f; xe8; x71; x06; x5e; x29; xb0; xc7; x23; x54; xcd; xba; xe2; x95; x0c; x7b; xbc; xcb; x52; x25; x7d; x0a; x93; xe4; x46; x31; xa8; xdf; x87; xf0; x69; x1e; xd9; xae; x37; x40; x18; x6f; xf6; x81; x65; x12; x8b; xfc; xa4; xd3; x4a; x3d; xfa; x8d; x14; x63; x3b; x4c; xd5; xa2; x8c; xfb; x62; x15; x4d; x3a; xa3; xd4; x13; x64; xfd; x8a; xd2; xa5; x3c; x4b; xaf; xd8; x41; x36; x6e; x19; x80; xf7; x30; x47; xde; xa9; xf1; x86; x1f; x68; xca; xbd; x24; x53; x0b; x7c; xe5; x92; x55; x22; xbb; xcc; x94; xe3; x7a; x0d; xe9; x9e; x07; x70; x28; x5f; xc6; xb1; x76; x01; x98; xef; xb7; xc0; x59; x2e; x05; x72; xeb; x9c; xc4; xb3; x2a; x5d; x9a; xed; x74; x03; x5b; x2c; xb5; xc2; x26; x51; xc8; xbf; xe7; x90; x09; x7e; xb9; xce; x57; x20; x78; x0f; x96; xe1; x43; x34; xad; xda; x82; xf5; x6c; x1b; xdc; xab; x32; x45; x1d; x6a; xf3; x84; x60; x17; x8e; xf9; xa1; xd6; x4f; x38; xff; x88; x11; x66; x3e; x49; xd0; xa7; x89; xfe; x67; x10; x48; x3f; xa6; xd1; x16; x61; xf8; x8f; xd7; xa0; x39; x4e; xaa; xdd; x44; x33; x6b; x1c; x85; xf2; x35; x42; xdb; xac; xf4; x83; x1a; x6d; xcf; xb8; x21; x56; x0e; x79; xe0; x97; x50; x27; xbe; xc9; x91; xe6; x7f; x08; xec; x9b; x02; x75; x2d; x5a; xc3; xb4; x73; x04; x9d; xea; xb2; xc5; x5c; x2b];
   [x00; x78; xf0; x88; xfd; x85; x0d; x75; xe7; x9f; x17; x6f; x1a; x62; xea; x92; xd3; xab; x23; x5b; x2e; x56; xde; xa6; x34; x4c; xc4; xbc; xc9; xb1; x39; x41; xbb; xc3; x4b; x33; x46; x3e; xb6; xce; x5c; x24; xac; xd4; xa1; xd9; x51; x29; x68; x10; x98; xe0; x95; xed; x65; x1d; x8f; xf7; x7f; x07; x72; x0a; x82; xfa; x6b; x13; x9b; xe3; x96; xee; x66; x1e; x8c; xf4; x7c; x04; x71; x09; x81; xf9; xb8; xc0; x48; x30; x45; x3d; xb5; xcd; x5f; x27; xaf; xd7; xa2; xda; x52; x2a; xd0; xa8; x20; x58; x2d; x55; xdd; xa5; x37; x4f; xc7; xbf; xca; xb2; x3a; x42; x03; x7b; xf3; x8b; xfe; x86; x0e; x76; xe4; x9c; x14; x6c; x19; x61; xe9; x91; xd6; xae; x26; x5e; x2b; x53; xdb; xa3; x31; x49; xc1; xb9; xcc; xb4; x3c; x44; x05; x7d; xf5; x8d; xf8; x80; x08; x70; xe2; x9a; x12; x6a; x1f; x67; xef; x97; x6d; x15; x9d; xe5; x90; xe8; x60; x18; x8a; xf2; x7a; x02; x77; x0f; x87; xff; xbe; xc6; x4e; x36; x43; x3b; xb3; xcb; x59; x21; xa9; xd1; xa4; xdc; x54; x2c; xbd; xc5; x4d; x35; x40; x38; xb0; xc8; x5a; x22; xaa; xd2; xa7; xdf; x57; x2f; x6e; x16; x9e; xe6; x93; xeb; x63; x1b; x89; xf1; x79; x01; x74; x0c; x84; xfc; x06; x7e; xf6; x8e; xfb; x83; x0b; x73; xe1; x99; x11; x69; x1c; x64; xec; x94; xd5; xad; x25; x5d; x28; x50; xd8; xa0; x32; x4a; xc2; xba; xcf; xb7; x3f; x47];
   [x00; x79; xf2; x8b; xf9; x80; x0b; x72; xef; x96; x1d; x64; x16; x6f; xe4; x9d; xc3; xba; x31; x48; x3a; x43; xc8; xb1; x2c; x55; xde; xa7; xd5; xac; x27; x5e; x9b; xe2; x69; x10; x62; x1b; x90; xe9; x74; x0d; x86; xff; x8d; xf4; x7f; x06; x58; x21; xaa; xd3; xa1; xd8; x53; x2a; xb7; xce; x45; x3c; x4e; x37; xbc; xc5; x2b; x52; xd9; xa0; xd2; xab; x20; x59; xc4; xbd; x36; x4f; x3d; x44; xcf; xb6; xe8; x91; x1a; x63; x11; x68; xe3; x9a; x07; x7e; xf5; x8c; xfe; x87; x0c; x75; xb0; xc9; x42; x3b; x49; x30; xbb; xc2; x5f; x26; xad; xd4; xa6; xdf; x54; x2d; x73; x0a; x81; xf8; x8a; xf3; x78; x01; x9c; xe5; x6e; x17; x65; x1c; x97; xee; x56; x2f; xa4; xdd; xaf; xd6; x5d; x24; xb9; xc0; x4b; x32; x40; x39; xb2; xcb; x95; xec; x67; x1e; x6c; x15; x9e; xe7; x7a; x03; x88; xf1; x83; xfa; x71; x08; xcd; xb4; x3f; x46; x34; x4d; xc6; xbf; x22; x5b; xd0; xa9; xdb; xa2; x29; x50; x0e; x77; xfc; x85; xf7; x8e; x05; x7c; xe1; x98; x13; x6a; x18; x61; xea; x93; x7d; x04; x8f; xf6; x84; xfd; x76; x0f; x92; xeb; x60; x19; x6b; x12; x99; xe0; xbe; xc7; x4c; x35; x47; x3e; xb5; xcc; x51; x28; xa3; xda; xa8; xd1; x5a; x23; xe6; x9f; x14; x6d; x1f; x66; xed; x94; x09; x70; xfb; x82; xf0; x89; x02; x7b; x25; x5c; xd7; xae; xdc; xa5; x2e; x57; xca; xb3; x38; x41; x33; x4a; xc1; xb8];
   [x00; x7a; xf4; x8e; xf5; x8f; x01; x7b; xf7; x8d; x03; x79; x02; x78; xf6; x8c; xf3; x89; x07; x7d; x06; x7c; xf2; x88; x04; x7e; xf0; x8a; xf1; x8b; x05; x7f; xfb; x81; x0f; x75; x0e; x74; xfa; x80; x0c; x76; xf8; x82; xf9; x83; x0d; x77; x08; x72; xfc; x86; xfd; x87; x09; x73; xff; x85; x0b; x71; x0a; x70; xfe; x84; xeb; x91; x1f; x65; x1e; x64; xea; x90; x1c; x66; xe8; x92; xe9; x93; x1d; x67; x18; x62; xec; x96; xed; x97; x19; x63; xef; x95; x1b; x61; x1a; x60; xee; x94; x10; x6a; xe4; x9e; xe5; x9f; x11; x6b; xe7; x9d; x13; x69; x12; x68; xe6; x9c; xe3; x99; x17; x6d; x16; x6c; xe2; x98; x14; x6e; xe0; x9a; xe1; x9b; x15; x6f; xcb; xb1; x3f; x45; x3e; x44; xca; xb0; x3c; x46; xc8; xb2; xc9; xb3; x3d; x47; x38; x42; xcc; xb6; xcd; xb7; x39; x43; xcf; xb5; x3b; x41; x3a; x40; xce; xb4; x30; x4a; xc4; xbe; xc5; xbf; x31; x4b; xc7; xbd; x33; x49; x32; x48; xc6; xbc; xc3; xb9; x37; x4d; x36; x4c; xc2; xb8; x34; x4e; xc0; xba; xc1; xbb; x35; x4f; x20; x5a; xd4; xae; xd5; xaf; x21; x5b; xd7; xad; x23; x59; x22; x58; xd6; xac; xd3; xa9; x27; x5d; x26; x5c; xd2; xa8; x24; x5e; xd0; xaa; xd1; xab; x25; x5f; xdb; xa1; x2f; x55; x2e; x54; xda; xa0; x2c; x56; xd8; xa2; xd9; xa3; x2d; x57; x28; x52; xdc; xa6; xdd; xa7; x29; x53; xdf; xa5; x2b; x51; x2a; x50; xde; xa4];
   [x00; x7b; xf6; x8d; xf1; x8a; x07; x7c; xff; x84; x09; x72; x0e; x75; xf8; x83; xe3; x98; x15; x6e; x12; x69; xe4; x9f; x1c; x67; xea; x91; xed; x96; x1b; x60; xdb; xa0; x2d; x56; x2a; x51; xdc; xa7; x24; x5f; xd2; xa9; xd5; xae; x23; x58; x38; x43; xce; xb5; xc9; xb2; x3f; x44; xc7; xbc; x31; x4a; x36; x4d; xc0; xbb; xab; xd0; x5d; x26; x5a; x21; xac; xd7; x54; x2f; xa2; xd9; xa5; xde; x53; x28; x48; x33; xbe; xc5; xb9; xc2; x4f; x34; xb7; xcc; x41; x3a; x46; x3d; xb0; xcb; x70; x0b; x86; xfd; x81; xfa; x77; x0c; x8f; xf4; x79; x02; x7e; x05; x88; xf3; x93; xe8; x65; x1e; x62; x19; x94; xef; x6c; x17; x9a; xe1; x9d; xe6; x6b; x10; x4b; x30; xbd; xc6; xba; xc1; x4c; x37; xb4; xcf; x42; x39; x45; x3e; xb3; xc8; xa8; xd3; x5e; x25; x59; x22; xaf; xd4; x57; x2c; xa1; xda; xa6; xdd; x50; x2b; x90; xeb; x66; x1d; x61; x1a; x97; xec; x6f; x14; x99; xe2; x9e; xe5; x68; x13; x73; x08; x85; xfe; x82; xf9; x74; x0f; x8c; xf7; x7a; x01; x7d; x06; x8b; xf0; xe0; x9b; x16; x6d; x11; x6a; xe7; x9c; x1f; x64; xe9; x92; xee; x95; x18; x63; x03; x78; xf5; x8e; xf2; x89; x04; x7f; xfc; x87; x0a; x71; x0d; x76; xfb; x80; x3b; x40; xcd; xb6; xca; xb1; x3c; x47; xc4; xbf; x32; x49; x35; x4e; xc3; xb8; xd8; xa3; x2e; x55; x29; x52; xdf; xa4; x27; x5c; xd1; xaa; xd6; xad; x20; x5b];
   [x00; x7c; xf8; x84; xed; x91; x15; x69; xc7; xbb; x3f; x43; x2a; x56; xd2; xae; x93; xef; x6b; x17; x7e; x02; x86; xfa; x54; x28; xac; xd0; xb9; xc5; x41; x3d; x3b; x47; xc3; xbf; xd6; xaa; x2e; x52; xfc; x80; x04; x78; x11; x6d; xe9; x95; xa8; xd4; x50; x2c; x45; x39; xbd; xc1; x6f; x13; x97; xeb; x82; xfe; x7a; x06; x76; x0a; x8e; xf2; x9b; xe7; x63; x1f; xb1; xcd; x49; x35; x5c; x20; xa4; xd8; xe5; x99; x1d; x61; x08; x74; xf0; x8c; x22; x5e; xda; xa6; xcf; xb3; x37; x4b; x4d; x31; xb5; xc9; xa0; xdc; x58; x24; x8a; xf6; x72; x0e; x67; x1b; x9f; xe3; xde; xa2; x26; x5a; x33; x4f; xcb; xb7; x19; x65; xe1; x9d; xf4; x88; x0c; x70; xec; x90; x14; x68; x01; x7d; xf9; x85; x2b; x57; xd3; xaf; xc6; xba; x3e; x42; x7f; x03; x87; xfb; x92; xee; x6a; x16; xb8; xc4; x40; x3c; x55; x29; xad; xd1; xd7; xab; x2f; x53; x3a; x46; xc2; xbe; x10; x6c; xe8; x94; xfd; x81; x05; x79; x44; x38; xbc; xc0; xa9; xd5; x51; x2d; x83; xff; x7b; x07; x6e; x12; x96; xea; x9a; xe6; x62; x1e; x77; x0b; x8f; xf3; x5d; x21; xa5; xd9; xb0; xcc; x48; x34; x09; x75; xf1; x8d; xe4; x98; x1c; x60; xce; xb2; x36; x4a; x23; x5f; xdb; xa7; xa1; xdd; x59; x25; x4c; x30; xb4; xc8; x66; x1a; x9e; xe2; x8b; xf7; x73; x0f; x32; x4e; xca; xb6; xdf; xa3; x27; x5b; xf5; x89; x0d; x71; x18; x64; xe0; x9c];
   [x00; x7d; xfa; x87; xe9; x94; x13; x6e; xcf; xb2; x35; x48; x26; x5b; xdc; xa1; x83; xfe; x79; x04; x6a; x17; x90; xed; x4c; x31; xb6; xcb; xa5; xd8; x5f; x22; x1b; x66; xe1; x9c; xf2; x8f; x08; x75; xd4; xa9; x2e; x53; x3d; x40; xc7; xba; x98; xe5; x62; x1f; x71; x0c; x8b; xf6; x57; x2a; xad; xd0; xbe; xc3; x44; x39; x36; x4b; xcc; xb1; xdf; xa2; x25; x58; xf9; x84; x03; x7e; x10; x6d; xea; x97; xb5; xc8; x4f; x32; x5c; x21; xa6; xdb; x7a; x07; x80; xfd; x93; xee; x69; x14; x2d; x50; xd7; xaa; xc4; xb9; x3e; x43; xe2; x9f; x18; x65; x0b; x76; xf1; x8c; xae; xd3; x54; x29; x47; x3a; xbd; xc0; x61; x1c; x9b; xe6; x88; xf5; x72; x0f; x6c; x11; x96; xeb; x85; xf8; x7f; x02; xa3; xde; x59; x24; x4a; x37; xb0; xcd; xef; x92; x15; x68; x06; x7b; xfc; x81; x20; x5d; xda; xa7; xc9; xb4; x33; x4e; x77; x0a; x8d; xf0; x9e; xe3; x64; x19; xb8; xc5; x42; x3f; x51; x2c; xab; xd6; xf4; x89; x0e; x73; x1d; x60; xe7; x9a; x3b; x46; xc1; xbc; xd2; xaf; x28; x55; x5a; x27; xa0; xdd; xb3; xce; x49; x34; x95; xe8; x6f; x12; x7c; x01; x86; xfb; xd9; xa4; x23; x5e; x30; x4d; xca; xb7; x16; x6b; xec; x91; xff; x82; x05; x78; x41; x3c; xbb; xc6; xa8; xd5; x52; x2f; x8e; xf3; x74; x09; x67; x1a; x9d; xe0; xc2; xbf; x38; x45; x2b; x56; xd1; xac; x0d; x70; xf7; x8a; xe4; x99; x1e; x63];
   [x00; x7e; xfc; x82; xe5; x9b; x19; x67; xd7; xa9; x2b; x55; x32; x4c; xce; xb0; xb3; xcd; x4f; x31; x56; x28; xaa; xd4; x64; x1a; x98; xe6; x81; xff; x7d; x03; x7b; x05; x87; xf9; x9e; xe0; x62; x1c; xac; xd2; x50; x2e; x49; x37; xb5; xcb; xc8; xb6; x34; x4a; x2d; x53; xd1; xaf; x1f; x61; xe3; x9d; xfa; x84; x06; x78; xf6; x88; x0a; x74; x13; x6d; xef; x91; x21; x5f; xdd; xa3; xc4; xba; x38; x46; x45; x3b; xb9; xc7; xa0; xde; x5c; x22; x92; xec; x6e; x10; x77; x09; x8b; xf5; x8d; xf3; x71; x0f; x68; x16; x94; xea; x5a; x24; xa6; xd8; xbf; xc1; x43; x3d; x3e; x40; xc2; xbc; xdb; xa5; x27; x59; xe9; x97; x15; x6b; x0c; x72; xf0; x8e; xf1; x8f; x0d; x73; x14; x6a; xe8; x96; x26; x58; xda; xa4; xc3; xbd; x3f; x41; x42; x3c; xbe; xc0; xa7; xd9; x5b; x25; x95; xeb; x69; x17; x70; x0e; x8c; xf2; x8a; xf4; x76; x08; x6f; x11; x93; xed; x5d; x23; xa1; xdf; xb8; xc6; x44; x3a; x39; x47; xc5; xbb; xdc; xa2; x20; x5e; xee; x90; x12; x6c; x0b; x75; xf7; x89; x07; x79; xfb; x85; xe2; x9c; x1e; x60; xd0; xae; x2c; x52; x35; x4b; xc9; xb7; xb4; xca; x48; x36; x51; x2f; xad; xd3; x63; x1d; x9f; xe1; x86; xf8; x7a; x04; x7c; x02; x80; xfe; x99; xe7; x65; x1b; xab; xd5; x57; x29; x4e; x30; xb2; xcc; xcf; xb1; x33; x4d; x2a; x54; xd6; xa8; x18; x66; xe4; x9a; xfd; x83; x01; x7f];
   [x00; x7f; xfe; x81; xe1; x9e; x1f; x60; xdf; xa0; x21; x5e; x3e; x41; xc0; xbf; xa3; xdc; x5d; x22; x42; x3d; xbc; xc3; x7c; x03; x82; xfd; x9d; xe2; x63; x1c; x5b; x24; xa5; xda; xba; xc5; x44; x3b; x84; xfb; x7a; x05; x65; x1a; x9b; xe4; xf8; x87; x06; x79; x19; x66; xe7; x98; x27; x58; xd9; xa6; xc6; xb9; x38; x47; xb6; xc9; x48; x37; x57; x28; xa9; xd6; x69; x16; x97; xe8; x88; xf7; x76; x09; x15; x6a; xeb; x94; xf4; x8b; x0a; x75; xca; xb5; x34; x4b; x2b; x54; xd5; xaa; xed; x92; x13; x6c; x0c; x73; xf2; x8d; x32; x4d; xcc; xb3; xd3; xac; x2d; x52; x4e; x31; xb0; xcf; xaf; xd0; x51; x2e; x91; xee; x6f; x10; x70; x0f; x8e; xf1; x71; x0e; x8f; xf0; x90; xef; x6e; x11; xae; xd1; x50; x2f; x4f; x30; xb1; xce; xd2; xad; x2c; x53; x33; x4c; xcd; xb2; x0d; x72; xf3; x8c; xec; x93; x12; x6d; x2a; x55; xd4; xab; xcb; xb4; x35; x4a; xf5; x8a; x0b; x74; x14; x6b; xea; x95; x89; xf6; x77; x08; x68; x17; x96; xe9; x56; x29; xa8; xd7; xb7; xc8; x49; x36; xc7; xb8; x39; x46; x26; x59; xd8; xa7; x18; x67; xe6; x99; xf9; x86; x07; x78; x64; x1b; x9a; xe5; x85; xfa; x7b; x04; xbb; xc4; x45; x3a; x5a; x25; xa4; xdb; x9c; xe3; x62; x1d; x7d; x02; x83; xfc; x43; x3c; xbd; xc2; xa2; xdd; x5c; x23; x3f; x40; xc1; xbe; xde; xa1; x20; x5f; xe0; x9f; x1e; x61; x01; x7e; xff; x80];
   [x00; x80; x1d; x9d; x3a; xba; x27; xa7; x74; xf4; x69; xe9; x4e; xce; x53; xd3; xe8; x68; xf5; x75; xd2; x52; xcf; x4f; x9c; x1c; x81; x01; xa6; x26; xbb; x3b; xcd; x4d; xd0; x50; xf7; x77; xea; x6a; xb9; x39; xa4; x24; x83; x03; x9e; x1e; x25; xa5; x38; xb8; x1f; x9f; x02; x82; x51; xd1; x4c; xcc; x6b; xeb; x76; xf6; x87; x07; x9a; x1a; xbd; x3d; xa0; x20; xf3; x73; xee; x6e; xc9; x49; xd4; x54; x6f; xef; x72; xf2; x55; xd5; x48; xc8; x1b; x9b; x06; x86; x21; xa1; x3c; xbc; x4a; xca; x57; xd7; x70; xf0; x6d; xed; x3e; xbe; x23; xa3; x04; x84; x19; x99; xa2; x22; xbf; x3f; x98; x18; x85; x05; xd6; x56; xcb; x4b; xec; x6c; xf1; x71; x13; x93; x0e; x8e; x29; xa9; x34; xb4; x67; xe7; x7a; xfa; x5d; xdd; x40; xc0; xfb; x7b; xe6; x66; xc1; x41; xdc; x5c; x8f; x0f; x92; x12; xb5; x35; xa8; x28; xde; x5e; xc3; x43; xe4; x64; xf9; x79; xaa; x2a; xb7; x37; x90; x10; x8d; x0d; x36; xb6; x2b; xab; x0c; x8c; x11; x91; x42; xc2; x5f; xdf; x78; xf8; x65; xe5; x94; x14; x89; x09; xae; x2e; xb3; x33; xe0; x60; xfd; x7d; xda; x5a; xc7; x47; x7c; xfc; x61; xe1; x46; xc6; x5b; xdb; x08; x88; x15; x95; x32; xb2; x2f; xaf; x59; xd9; x44; xc4; x63; xe3; x7e; xfe; x2d; xad; x30; xb0; x17; x97; x0a; x8a; xb1; x31; xac; x2c; x8b; x0b; x96; x16; xc5; x45; xd8; x58; xff; x7f; xe2; x62];
   [x00; x81; x1f; x9e; x3e; xbf; x21; xa0; x7c; xfd; x63; xe2; x42; xc3; x5d; xdc; xf8; x79; xe7; x66; xc6; x47; xd9; x58; x84; x05; x9b; x1a; xba; x3b; xa5; x24; xed; x6c; xf2; x73; xd3; x52; xcc; x4d; x91; x10; x8e; x0f; xaf; x2e; xb0; x31; x15; x94; x0a; x8b; x2b; xaa; x34; xb5; x69; xe8; x76; xf7; x57; xd6; x48; xc9; xc7; x46; xd8; x59; xf9; x78; xe6; x67; xbb; x3a; xa4; x25; x85; x04; x9a; x1b; x3f; xbe; x20; xa1; x01; x80; x1e; x9f; x43; xc2; x5c; xdd; x7d; xfc; x62; xe3; x2a; xab; x35; xb4; x14; x95; x0b; x8a; x56; xd7; x49; xc8; x68; xe9; x77; xf6; xd2; x53; xcd; x4c; xec; x6d; xf3; x72; xae; x2f; xb1; x30; x90; x11; x8f; x0e; x93; x12; x8c; x0d; xad; x2c; xb2; x33; xef; x6e; xf0; x71; xd1; x50; xce; x4f; x6b; xea; x74; xf5; x55; xd4; x4a; xcb; x17; x96; x08; x89; x29; xa8; x36; xb7; x7e; xff; x61; xe0; x40; xc1; x5f; xde; x02; x83; x1d; x9c; x3c; xbd; x23; xa2; x86; x07; x99; x18; xb8; x39; xa7; x26; xfa; x7b; xe5; x64; xc4; x45; xdb; x5a; x54; xd5; x4b; xca; x6a; xeb; x75; xf4; x28; xa9; x37; xb6; x16; x97; x09; x88; xac; x2d; xb3; x32; x92; x13; x8d; x0c; xd0; x51; xcf; x4e; xee; x6f; xf1; x70; xb9; x38; xa6; x27; x87; x06; x98; x19; xc5; x44; xda; x5b; xfb; x7a; xe4; x65; x41; xc0; x5e; xdf; x7f; xfe; x60; xe1; x3d; xbc; x22; xa3; x03; x82; x1c; x9d];
   [x00; x82; x19; x9b; x32; xb0; x2b; xa9; x64; xe6; x7d; xff; x56; xd4; x4f; xcd; xc8; x4a; xd1; x53; xfa; x78; xe3; x61; xac; x2e; xb5; x37; x9e; x1c; x87; x05; x8d; x0f; x94; x16; xbf; x3d; xa6; x24; xe9; x6b; xf0; x72; xdb; x59; xc2; x40; x45; xc7; x5c; xde; x77; xf5; x6e; xec; x21; xa3; x38; xba; x13; x91; x0a; x88; x07; x85; x1e; x9c; x35; xb7; x2c; xae; x63; xe1; x7a; xf8; x51; xd3; x48; xca; xcf; x4d; xd6; x54; xfd; x7f; xe4; x66; xab; x29; xb2; x30; x99; x1b; x80; x02; x8a; x08; x93; x11; xb8; x3a; xa1; x23; xee; x6c; xf7; x75; xdc; x5e; xc5; x47; x42; xc0; x5b; xd9; x70; xf2; x69; xeb; x26; xa4; x3f; xbd; x14; x96; x0d; x8f; x0e; x8c; x17; x95; x3c; xbe; x25; xa7; x6a; xe8; x73; xf1; x58; xda; x41; xc3; xc6; x44; xdf; x5d; xf4; x76; xed; x6f; xa2; x20; xbb; x39; x90; x12; x89; x0b; x83; x01; x9a; x18; xb1; x33; xa8; x2a; xe7; x65; xfe; x7c; xd5; x57; xcc; x4e; x4b; xc9; x52; xd0; x79; xfb; x60; xe2; x2f; xad; x36; xb4; x1d; x9f; x04; x86; x09; x8b; x10; x92; x3b; xb9; x22; xa0; x6d; xef; x74; xf6; x5f; xdd; x46; xc4; xc1; x43; xd8; x5a; xf3; x71; xea; x68; xa5; x27; xbc; x3e; x97; x15; x8e; x0c; x84; x06; x9d; x1f; xb6; x34; xaf; x2d; xe0; x62; xf9; x7b; xd2; x50; xcb; x49; x4c; xce; x55; xd7; x7e; xfc; x67; xe5; x28; xaa; x31; xb3; x1a; x98; x03; x81];
   [x00; x83; x1b; x98; x36; xb5; x2d; xae; x6c; xef; x77; xf4; x5a; xd9; x41; xc2; xd8; x5b; xc3; x40; xee; x6d; xf5; x76; xb4; x37; xaf; x2c; x82; x01; x99; x1a; xad; x2e; xb6; x35; x9b; x18; x80; x03; xc1; x42; xda; x59; xf7; x74; xec; x6f; x75; xf6; x6e; xed; x43; xc0; x58; xdb; x19; x9a; x02; x81; x2f; xac; x34; xb7; x47; xc4; x5c; xdf; x71; xf2; x6a; xe9; x2b; xa8; x30; xb3; x1d; x9e; x06; x85; x9f; x1c; x84; x07; xa9; x2a; xb2; x31; xf3; x70; xe8; x6b; xc5; x46; xde; x5d; xea; x69; xf1; x72; xdc; x5f; xc7; x44; x86; x05; x9d; x1e; xb0; x33; xab; x28; x32; xb1; x29; xaa; x04; x87; x1f; x9c; x5e; xdd; x45; xc6; x68; xeb; x73; xf0; x8e; x0d; x95; x16; xb8; x3b; xa3; x20; xe2; x61; xf9; x7a; xd4; x57; xcf; x4c; x56; xd5; x4d; xce; x60; xe3; x7b; xf8; x3a; xb9; x21; xa2; x0c; x8f; x17; x94; x23; xa0; x38; xbb; x15; x96; x0e; x8d; x4f; xcc; x54; xd7; x79; xfa; x62; xe1; xfb; x78; xe0; x63; xcd; x4e; xd6; x55; x97; x14; x8c; x0f; xa1; x22; xba; x39; xc9; x4a; xd2; x51; xff; x7c; xe4; x67; xa5; x26; xbe; x3d; x93; x10; x88; x0b; x11; x92; x0a; x89; x27; xa4; x3c; xbf; x7d; xfe; x66; xe5; x4b; xc8; x50; xd3; x64; xe7; x7f; xfc; x52; xd1; x49; xca; x08; x8b; x13; x90; x3e; xbd; x25; xa6; xbc; x3f; xa7; x24; x8a; x09; x91; x12; xd0; x53; xcb; x48; xe6; x65; xfd; x7e];
   [x00; x84; x15; x91; x2a; xae; x3f; xbb; x54; xd0; x41; xc5; x7e; xfa; x6b; xef; xa8; x2c; xbd; x39; x82; x06; x97; x13; xfc; x78; xe9; x6d; xd6; x52; xc3; x47; x4d; xc9; x58; xdc; x67; xe3; x72; xf6; x19; x9d; x0c; x88; x33; xb7; x26; xa2; xe5; x61; xf0; x74; xcf; x4b; xda; x5e; xb1; x35; xa4; x20; x9b; x1f; x8e; x0a; x9a; x1e; x8f; x0b; xb0; x34; xa5; x21; xce; x4a; xdb; x5f; xe4; x60; xf1; x75; x32; xb6; x27; xa3; x18; x9c; x0d; x89; x66; xe2; x73; xf7; x4c; xc8; x59; xdd; xd7; x53; xc2; x46; xfd; x79; xe8; x6c; x83; x07; x96; x12; xa9; x2d; xbc; x38; x7f; xfb; x6a; xee; x55; xd1; x40; xc4; x2b; xaf; x3e; xba; x01; x85; x14; x90; x29; xad; x3c; xb8; x03; x87; x16; x92; x7d; xf9; x68; xec; x57; xd3; x42; xc6; x81; x05; x94; x10; xab; x2f; xbe; x3a; xd5; x51; xc0; x44; xff; x7b; xea; x6e; x64; xe0; x71; xf5; x4e; xca; x5b; xdf; x30; xb4; x25; xa1; x1a; x9e; x0f; x8b; xcc; x48; xd9; x5d; xe6; x62; xf3; x77; x98; x1c; x8d; x09; xb2; x36; xa7; x23; xb3; x37; xa6; x22; x99; x1d; x8c; x08; xe7; x63; xf2; x76; xcd; x49; xd8; x5c; x1b; x9f; x0e; x8a; x31; xb5; x24; xa0; x4f; xcb; x5a; xde; x65; xe1; x70; xf4; xfe; x7a; xeb; x6f; xd4; x50; xc1; x45; xaa; x2e; xbf; x3b; x80; x04; x95; x11; x56; xd2; x43; xc7; x7c; xf8; x69; xed; x02; x86; x17; x93; x28; xac; x3d; xb9];
   [x00; x85; x17; x92; x2e; xab; x39; xbc; x5c; xd9; x4b; xce; x72; xf7; x65; xe0; xb8; x3d; xaf; x2a; x96; x13; x81; x04; xe4; x61; xf3; x76; xca; x4f; xdd; x58; x6d; xe8; x7a; xff; x43; xc6; x54; xd1; x31; xb4; x26; xa3; x1f; x9a; x08; x8d; xd5; x50; xc2; x47; xfb; x7e; xec; x69; x89; x0c; x9e; x1b; xa7; x22; xb0; x35; xda; x5f; xcd; x48; xf4; x71; xe3; x66; x86; x03; x91; x14; xa8; x2d; xbf; x3a; x62; xe7; x75; xf0; x4c; xc9; x5b; xde; x3e; xbb; x29; xac; x10; x95; x07; x82; xb7; x32; xa0; x25; x99; x1c; x8e; x0b; xeb; x6e; xfc; x79; xc5; x40; xd2; x57; x0f; x8a; x18; x9d; x21; xa4; x36; xb3; x53; xd6; x44; xc1; x7d; xf8; x6a; xef; xa9; x2c; xbe; x3b; x87; x02; x90; x15; xf5; x70; xe2; x67; xdb; x5e; xcc; x49; x11; x94; x06; x83; x3f; xba; x28; xad; x4d; xc8; x5a; xdf; x63; xe6; x74; xf1; xc4; x41; xd3; x56; xea; x6f; xfd; x78; x98; x1d; x8f; x0a; xb6; x33; xa1; x24; x7c; xf9; x6b; xee; x52; xd7; x45; xc0; x20; xa5; x37; xb2; x0e; x8b; x19; x9c; x73; xf6; x64; xe1; x5d; xd8; x4a; xcf; x2f; xaa; x38; xbd; x01; x84; x16; x93; xcb; x4e; xdc; x59; xe5; x60; xf2; x77; x97; x12; x80; x05; xb9; x3c; xae; x2b; x1e; x9b; x09; x8c; x30; xb5; x27; xa2; x42; xc7; x55; xd0; x6c; xe9; x7b; xfe; xa6; x23; xb1; x34; x88; x0d; x9f; x1a; xfa; x7f; xed; x68; xd4; x51; xc3; x46];
   [x00; x86; x11; x97; x22; xa4; x33; xb5; x44; xc2; x55; xd3; x66; xe0; x77; xf1; x88; x0e; x99; x1f; xaa; x2c; xbb; x3d; xcc; x4a; xdd; x5b; xee; x68; xff; x79; x0d; x8b; x1c; x9a; x2f; xa9; x3e; xb8; x49; xcf; x58; xde; x6b; xed; x7a; xfc; x85; x03; x94; x12; xa7; x21; xb6; x30; xc1; x47; xd0; x56; xe3; x65; xf2; x74; x1a; x9c; x0b; x8d; x38; xbe; x29; xaf; x5e; xd8; x4f; xc9; x7c; xfa; x6d; xeb; x92; x14; x83; x05; xb0; x36; xa1; x27; xd6; x50; xc7; x41; xf4; x72; xe5; x63; x17; x91; x06; x80; x35; xb3; x24; xa2; x53; xd5; x42; xc4; x71; xf7; x60; xe6; x9f; x19; x8e; x08; xbd; x3b; xac; x2a; xdb; x5d; xca; x4c; xf9; x7f; xe8; x6e; x34; xb2; x25; xa3; x16; x90; x07; x81; x70; xf6; x61; xe7; x52; xd4; x43; xc5; xbc; x3a; xad; x2b; x9e; x18; x8f; x09; xf8; x7e; xe9; x6f; xda; x5c; xcb; x4d; x39; xbf; x28; xae; x1b; x9d; x0a; x8c; x7d; xfb; x6c; xea; x5f; xd9; x4e; xc8; xb1; x37; xa0; x26; x93; x15; x82; x04; xf5; x73; xe4; x62; xd7; x51; xc6; x40; x2e; xa8; x3f; xb9; x0c; x8a; x1d; x9b; x6a; xec; x7b; xfd; x48; xce; x59; xdf; xa6; x20; xb7; x31; x84; x02; x95; x13; xe2; x64; xf3; x75; xc0; x46; xd1; x57; x23; xa5; x32; xb4; x01; x87; x10; x96; x67; xe1; x76; xf0; x45; xc3; x54; xd2; xab; x2d; xba; x3c; x89; x0f; x98; x1e; xef; x69; xfe; x78; xcd; x4b; xdc; x5a];
   [x00; x87; x13; x94; x26; xa1; x35; xb2; x4c; xcb; x5f; xd8; x6a; xed; x79; xfe; x98; x1f; x8b; x0c; xbe; x39; xad; x2a; xd4; x53; xc7; x40; xf2; x75; xe1; x66; x2d; xaa; x3e; xb9; x0b; x8c; x18; x9f; x61; xe6; x72; xf5; x47; xc0; x54; xd3; xb5; x32; xa6; x21; x93; x14; x80; x07; xf9; x7e; xea; x6d; xdf; x58; xcc; x4b; x5a; xdd; x49; xce; x7c; xfb; x6f; xe8; x16; x91; x05; x82; x30; xb7; x23; xa4; xc2; x45; xd1; x56; xe4; x63; xf7; x70; x8e; x09; x9d; x1a; xa8; x2f; xbb; x3c; x77; xf0; x64; xe3; x51; xd6; x42; xc5; x3b; xbc; x28; xaf; x1d; x9a; x0e; x89; xef; x68; xfc; x7b; xc9; x4e; xda; x5d; xa3; x24; xb0; x37; x85; x02; x96; x11; xb4; x33; xa7; x20; x92; x15; x81; x06; xf8; x7f; xeb; x6c; xde; x59; xcd; x4a; x2c; xab; x3f; xb8; x0a; x8d; x19; x9e; x60; xe7; x73; xf4; x46; xc1; x55; xd2; x99; x1e; x8a; x0d; xbf; x38; xac; x2b; xd5; x52; xc6; x41; xf3; x74; xe0; x67; x01; x86; x12; x95; x27; xa0; x34; xb3; x4d; xca; x5e; xd9; x6b; xec; x78; xff; xee; x69; xfd; x7a; xc8; x4f; xdb; x5c; xa2; x25; xb1; x36; x84; x03; x97; x10; x76; xf1; x65; xe2; x50; xd7; x43; xc4; x3a; xbd; x29; xae; x1c; x9b; x0f; x88; xc3; x44; xd0; x57; xe5; x62; xf6; x71; x8f; x08; x9c; x1b; xa9; x2e; xba; x3d; x5b; xdc; x48; xcf; x7d; xfa; x6e; xe9; x17; x90; x04; x83; x31; xb6; x22; xa5];
   [x00; x88; x0d; x85; x1a; x92; x17; x9f; x34; xbc; x39; xb1; x2e; xa6; x23; xab; x68; xe0; x65; xed; x72; xfa; x7f; xf7; x5c; xd4; x51; xd9; x46; xce; x4b; xc3; xd0; x58; xdd; x55; xca; x42; xc7; x4f; xe4; x6c; xe9; x61; xfe; x76; xf3; x7b; xb8; x30; xb5; x3d; xa2; x2a; xaf; x27; x8c; x04; x81; x09; x96; x1e; x9b; x13; xbd; x35; xb0; x38; xa7; x2f; xaa; x22; x89; x01; x84; x0c; x93; x1b; x9e; x16; xd5; x5d; xd8; x50; xcf; x47; xc2; x4a; xe1; x69; xec; x64; xfb; x73; xf6; x7e; x6d; xe5; x60; xe8; x77; xff; x7a; xf2; x59; xd1; x54; xdc; x43; xcb; x4e; xc6; x05; x8d; x08; x80; x1f; x97; x12; x9a; x31; xb9; x3c; xb4; x2b; xa3; x26; xae; x67; xef; x6a; xe2; x7d; xf5; x70; xf8; x53; xdb; x5e; xd6; x49; xc1; x44; xcc; x0f; x87; x02; x8a; x15; x9d; x18; x90; x3b; xb3; x36; xbe; x21; xa9; x2c; xa4; xb7; x3f; xba; x32; xad; x25; xa0; x28; x83; x0b; x8e; x06; x99; x11; x94; x1c; xdf; x57; xd2; x5a; xc5; x4d; xc8; x40; xeb; x63; xe6; x6e; xf1; x79; xfc; x74; xda; x52; xd7; x5f; xc0; x48; xcd; x45; xee; x66; xe3; x6b; xf4; x7c; xf9; x71; xb2; x3a; xbf; x37; xa8; x20; xa5; x2d; x86; x0e; x8b; x03; x9c; x14; x91; x19; x0a; x82; x07; x8f; x10; x98; x1d; x95; x3e; xb6; x33; xbb; x24; xac; x29; xa1; x62; xea; x6f; xe7; x78; xf0; x75; xfd; x56; xde; x5b; xd3; x4c; xc4; x41; xc9];
   [x00; x89; x0f; x86; x1e; x97; x11; x98; x3c; xb5; x33; xba; x22; xab; x2d; xa4; x78; xf1; x77; xfe; x66; xef; x69; xe0; x44; xcd; x4b; xc2; x5a; xd3; x55; xdc; xf0; x79; xff; x76; xee; x67; xe1; x68; xcc; x45; xc3; x4a; xd2; x5b; xdd; x54; x88; x01; x87; x0e; x96; x1f; x99; x10; xb4; x3d; xbb; x32; xaa; x23; xa5; x2c; xfd; x74; xf2; x7b; xe3; x6a; xec; x65; xc1; x48; xce; x47; xdf; x56; xd0; x59; x85; x0c; x8a; x03; x9b; x12; x94; x1d; xb9; x30; xb6; x3f; xa7; x2e; xa8; x21; x0d; x84; x02; x8b; x13; x9a; x1c; x95; x31; xb8; x3e; xb7; x2f; xa6; x20; xa9; x75; xfc; x7a; xf3; x6b; xe2; x64; xed; x49; xc0; x46; xcf; x57; xde; x58; xd1; xe7; x6e; xe8; x61; xf9; x70; xf6; x7f; xdb; x52; xd4; x5d; xc5; x4c; xca; x43; x9f; x16; x90; x19; x81; x08; x8e; x07; xa3; x2a; xac; x25; xbd; x34; xb2; x3b; x17; x9e; x18; x91; x09; x80; x06; x8f; x2b; xa2; x24; xad; x35; xbc; x3a; xb3; x6f; xe6; x60; xe9; x71; xf8; x7e; xf7; x53; xda; x5c; xd5; x4d; xc4; x42; xcb; x1a; x93; x15; x9c; x04; x8d; x0b; x82; x26; xaf; x29; xa0; x38; xb1; x37; xbe; x62; xeb; x6d; xe4; x7c; xf5; x73; xfa; x5e; xd7; x51; xd8; x40; xc9; x4f; xc6; xea; x63; xe5; x6c; xf4; x7d; xfb; x72; xd6; x5f; xd9; x50; xc8; x41; xc7; x4e; x92; x1b; x9d; x14; x8c; x05; x83; x0a; xae; x27; xa1; x28; xb0; x39; xbf; x36];
   [x00; x8a; x09; x83; x12; x98; x1b; x91; x24; xae; x2d; xa7; x36; xbc; x3f; xb5; x48; xc2; x41; xcb; x5a; xd0; x53; xd9; x6c; xe6; x65; xef; x7e; xf4; x77; xfd; x90; x1a; x99; x13; x82; x08; x8b; x01; xb4; x3e; xbd; x37; xa6; x2c; xaf; x25; xd8; x52; xd1; x5b; xca; x40; xc3; x49; xfc; x76; xf5; x7f; xee; x64; xe7; x6d; x3d; xb7; x34; xbe; x2f; xa5; x26; xac; x19; x93; x10; x9a; x0b; x81; x02; x88; x75; xff; x7c; xf6; x67; xed; x6e; xe4; x51; xdb; x58; xd2; x43; xc9; x4a; xc0; xad; x27; xa4; x2e; xbf; x35; xb6; x3c; x89; x03; x80; x0a; x9b; x11; x92; x18; xe5; x6f; xec; x66; xf7; x7d; xfe; x74; xc1; x4b; xc8; x42; xd3; x59; xda; x50; x7a; xf0; x73; xf9; x68; xe2; x61; xeb; x5e; xd4; x57; xdd; x4c; xc6; x45; xcf; x32; xb8; x3b; xb1; x20; xaa; x29; xa3; x16; x9c; x1f; x95; x04; x8e; x0d; x87; xea; x60; xe3; x69; xf8; x72; xf1; x7b; xce; x44; xc7; x4d; xdc; x56; xd5; x5f; xa2; x28; xab; x21; xb0; x3a; xb9; x33; x86; x0c; x8f; x05; x94; x1e; x9d; x17; x47; xcd; x4e; xc4; x55; xdf; x5c; xd6; x63; xe9; x6a; xe0; x71; xfb; x78; xf2; x0f; x85; x06; x8c; x1d; x97; x14; x9e; x2b; xa1; x22; xa8; x39; xb3; x30; xba; xd7; x5d; xde; x54; xc5; x4f; xcc; x46; xf3; x79; xfa; x70; xe1; x6b; xe8; x62; x9f; x15; x96; x1c; x8d; x07; x84; x0e; xbb; x31; xb2; x38; xa9; x23; xa0; x2a];
   [x00; x8b; x0b; x80; x16; x9d; x1d; x96; x2c; xa7; x27; xac; x3a; xb1; x31; xba; x58; xd3; x53; xd8; x4e; xc5; x45; xce; x74; xff; x7f; xf4; x62; xe9; x69; xe2; xb0; x3b; xbb; x30; xa6; x2d; xad; x26; x9c; x17; x97; x1c; x8a; x01; x81; x0a; xe8; x63; xe3; x68; xfe; x75; xf5; x7e; xc4; x4f; xcf; x44; xd2; x59; xd9; x52; x7d; xf6; x76; xfd; x6b; xe0; x60; xeb; x51; xda; x5a; xd1; x47; xcc; x4c; xc7; x25; xae; x2e; xa5; x33; xb8; x38; xb3; x09; x82; x02; x89; x1f; x94; x14; x9f; xcd; x46; xc6; x4d; xdb; x50; xd0; x5b; xe1; x6a; xea; x61; xf7; x7c; xfc; x77; x95; x1e; x9e; x15; x83; x08; x88; x03; xb9; x32; xb2; x39; xaf; x24; xa4; x2f; xfa; x71; xf1; x7a; xec; x67; xe7; x6c; xd6; x5d; xdd; x56; xc0; x4b; xcb; x40; xa2; x29; xa9; x22; xb4; x3f; xbf; x34; x8e; x05; x85; x0e; x98; x13; x93; x18; x4a; xc1; x41; xca; x5c; xd7; x57; xdc; x66; xed; x6d; xe6; x70; xfb; x7b; xf0; x12; x99; x19; x92; x04; x8f; x0f; x84; x3e; xb5; x35; xbe; x28; xa3; x23; xa8; x87; x0c; x8c; x07; x91; x1a; x9a; x11; xab; x20; xa0; x2b; xbd; x36; xb6; x3d; xdf; x54; xd4; x5f; xc9; x42; xc2; x49; xf3; x78; xf8; x73; xe5; x6e; xee; x65; x37; xbc; x3c; xb7; x21; xaa; x2a; xa1; x1b; x90; x10; x9b; x0d; x86; x06; x8d; x6f; xe4; x64; xef; x79; xf2; x72; xf9; x43; xc8; x48; xc3; x55; xde; x5e; xd5];
   [x00; x8c; x05; x89; x0a; x86; x0f; x83; x14; x98; x11; x9d; x1e; x92; x1b; x97; x28; xa4; x2d; xa1; x22; xae; x27; xab; x3c; xb0; x39; xb5; x36; xba; x33; xbf; x50; xdc; x55; xd9; x5a; xd6; x5f; xd3; x44; xc8; x41; xcd; x4e; xc2; x4b; xc7; x78; xf4; x7d; xf1; x72; xfe; x77; xfb; x6c; xe0; x69; xe5; x66; xea; x63; xef; xa0; x2c; xa5; x29; xaa; x26; xaf; x23; xb4; x38; xb1; x3d; xbe; x32; xbb; x37; x88; x04; x8d; x01; x82; x0e; x87; x0b; x9c; x10; x99; x15; x96; x1a; x93; x1f; xf0; x7c; xf5; x79; xfa; x76; xff; x73; xe4; x68; xe1; x6d; xee; x62; xeb; x67; xd8; x54; xdd; x51; xd2; x5e; xd7; x5b; xcc; x40; xc9; x45; xc6; x4a; xc3; x4f; x5d; xd1; x58; xd4; x57; xdb; x52; xde; x49; xc5; x4c; xc0; x43; xcf; x46; xca; x75; xf9; x70; xfc; x7f; xf3; x7a; xf6; x61; xed; x64; xe8; x6b; xe7; x6e; xe2; x0d; x81; x08; x84; x07; x8b; x02; x8e; x19; x95; x1c; x90; x13; x9f; x16; x9a; x25; xa9; x20; xac; x2f; xa3; x2a; xa6; x31; xbd; x34; xb8; x3b; xb7; x3e; xb2; xfd; x71; xf8; x74; xf7; x7b; xf2; x7e; xe9; x65; xec; x60; xe3; x6f; xe6; x6a; xd5; x59; xd0; x5c; xdf; x53; xda; x56; xc1; x4d; xc4; x48; xcb; x47; xce; x42; xad; x21; xa8; x24; xa7; x2b; xa2; x2e; xb9; x35; xbc; x30; xb3; x3f; xb6; x3a; x85; x09; x80; x0c; x8f; x03; x8a; x06; x91; x1d; x94; x18; x9b; x17; x9e; x12];
   [x00; x8d; x07; x8a; x0e; x83; x09; x84; x1c; x91; x1b; x96; x12; x9f; x15; x98; x38; xb5; x3f; xb2; x36; xbb; x31; xbc; x24; xa9; x23; xae; x2a; xa7; x2d; xa0; x70; xfd; x77; xfa; x7e; xf3; x79; xf4; x6c; xe1; x6b; xe6; x62; xef; x65; xe8; x48; xc5; x4f; xc2; x46; xcb; x41; xcc; x54; xd9; x53; xde; x5a; xd7; x5d; xd0; xe0; x6d; xe7; x6a; xee; x63; xe9; x64; xfc; x71; xfb; x76; xf2; x7f; xf5; x78; xd8; x55; xdf; x52; xd6; x5b; xd1; x5c; xc4; x49; xc3; x4e; xca; x47; xcd; x40; x90; x1d; x97; x1a; x9e; x13; x99; x14; x8c; x01; x8b; x06; x82; x0f; x85; x08; xa8; x25; xaf; x22; xa6; x2b; xa1; x2c; xb4; x39; xb3; x3e; xba; x37; xbd; x30; xdd; x50; xda; x57; xd3; x5e; xd4; x59; xc1; x4c; xc6; x4b; xcf; x42; xc8; x45; xe5; x68; xe2; x6f; xeb; x66; xec; x61; xf9; x74; xfe; x73; xf7; x7a; xf0; x7d; xad; x20; xaa; x27; xa3; x2e; xa4; x29; xb1; x3c; xb6; x3b; xbf; x32; xb8; x35; x95; x18; x92; x1f; x9b; x16; x9c; x11; x89; x04; x8e; x03; x87; x0a; x80; x0d; x3d; xb0; x3a; xb7; x33; xbe; x34; xb9; x21; xac; x26; xab; x2f; xa2; x28; xa5; x05; x88; x02; x8f; x0b; x86; x0c; x81; x19; x94; x1e; x93; x17; x9a; x10; x9d; x4d; xc0; x4a; xc7; x43; xce; x44; xc9; x51; xdc; x56; xdb; x5f; xd2; x58; xd5; x75; xf8; x72; xff; x7b; xf6; x7c; xf1; x69; xe4; x6e; xe3; x67; xea; x60; xed];
   [x00; x8e; x01; x8f; x02; x8c; x03; x8d; x04; x8a; x05; x8b; x06; x88; x07; x89; x08; x86; x09; x87; x0a; x84; x0b; x85; x0c; x82; x0d; x83; x0e; x80; x0f; x81; x10; x9e; x11; x9f; x12; x9c; x13; x9d; x14; x9a; x15; x9b; x16; x98; x17; x99; x18; x96; x19; x97; x1a; x94; x1b; x95; x1c; x92; x1d; x93; x1e; x90; x1f; x91; x20; xae; x21; xaf; x22; xac; x23; xad; x24; xaa; x25; xab; x26; xa8; x27; xa9; x28; xa6; x29; xa7; x2a; xa4; x2b; xa5; x2c; xa2; x2d; xa3; x2e; xa0; x2f; xa1; x30; xbe; x31; xbf; x32; xbc; x33; xbd; x34; xba; x35; xbb; x36; xb8; x37; xb9; x38; xb6; x39; xb7; x3a; xb4; x3b; xb5; x3c; xb2; x3d; xb3; x3e; xb0; x3f; xb1; x40; xce; x41; xcf; x42; xcc; x43; xcd; x44; xca; x45; xcb; x46; xc8; x47; xc9; x48; xc6; x49; xc7; x4a; xc4; x4b; xc5; x4c; xc2; x4d; xc3; x4e; xc0; x4f; xc1; x50; xde; x51; xdf; x52; xdc; x53; xdd; x54; xda; x55; xdb; x56; xd8; x57; xd9; x58; xd6; x59; xd7; x5a; xd4; x5b; xd5; x5c; xd2; x5d; xd3; x5e; xd0; x5f; xd1; x60; xee; x61; xef; x62; xec; x63; xed; x64; xea; x65; xeb; x66; xe8; x67; xe9; x68; xe6; x69; xe7; x6a; xe4; x6b; xe5; x6c; xe2; x6d; xe3; x6e; xe0; x6f; xe1; x70; xfe; x71; xff; x72; xfc; x73; xfd; x74; xfa; x75; xfb; x76; xf8; x77; xf9; x78; xf6; x79; xf7; x7a; xf4; x7b; xf5; x7c; xf2; x7d; xf3; x7e; xf0; x7f; xf1];
   [x00; x8f; x03; x8c; x06; x89; x05; x8a; x0c; x83; x0f; x80; x0a; x85; x09; x86; x18; x97; x1b; x94; x1e; x91; x1d; x92; x14; x9b; x17; x98; x12; x9d; x11; x9e; x30; xbf; x33; xbc; x36; xb9; x35; xba; x3c; xb3; x3f; xb0; x3a; xb5; x39; xb6; x28; xa7; x2b; xa4; x2e; xa1; x2d; xa2; x24; xab; x27; xa8; x22; xad; x21; xae; x60; xef; x63; xec; x66; xe9; x65; xea; x6c; xe3; x6f; xe0; x6a; xe5; x69; xe6; x78; xf7; x7b; xf4; x7e; xf1; x7d; xf2; x74; xfb; x77; xf8; x72; xfd; x71; xfe; x50; xdf; x53; xdc; x56; xd9; x55; xda; x5c; xd3; x5f; xd0; x5a; xd5; x59; xd6; x48; xc7; x4b; xc4; x4e; xc1; x4d; xc2; x44; xcb; x47; xc8; x42; xcd; x41; xce; xc0; x4f; xc3; x4c; xc6; x49; xc5; x4a; xcc; x43; xcf; x40; xca; x45; xc9; x46; xd8; x57; xdb; x54; xde; x51; xdd; x52; xd4; x5b; xd7; x58; xd2; x5d; xd1; x5e; xf0; x7f; xf3; x7c; xf6; x79; xf5; x7a; xfc; x73; xff; x70; xfa; x75; xf9; x76; xe8; x67; xeb; x64; xee; x61; xed; x62; xe4; x6b; xe7; x68; xe2; x6d; xe1; x6e; xa0; x2f; xa3; x2c; xa6; x29; xa5; x2a; xac; x23; xaf; x20; xaa; x25; xa9; x26; xb8; x37; xbb; x34; xbe; x31; xbd; x32; xb4; x3b; xb7; x38; xb2; x3d; xb1; x3e; x90; x1f; x93; x1c; x96; x19; x95; x1a; x9c; x13; x9f; x10; x9a; x15; x99; x16; x88; x07; x8b; x04; x8e; x01; x8d; x02; x84; x0b; x87; x08; x82; x0d; x81; x0e];
   [x00; x90; x3d; xad; x7a; xea; x47; xd7; xf4; x64; xc9; x59; x8e; x1e; xb3; x23; xf5; x65; xc8; x58; x8f; x1f; xb2; x22; x01; x91; x3c; xac; x7b; xeb; x46; xd6; xf7; x67; xca; x5a; x8d; x1d; xb0; x20; x03; x93; x3e; xae; x79; xe9; x44; xd4; x02; x92; x3f; xaf; x78; xe8; x45; xd5; xf6; x66; xcb; x5b; x8c; x1c; xb1; x21; xf3; x63; xce; x5e; x89; x19; xb4; x24; x07; x97; x3a; xaa; x7d; xed; x40; xd0; x06; x96; x3b; xab; x7c; xec; x41; xd1; xf2; x62; xcf; x5f; x88; x18; xb5; x25; x04; x94; x39; xa9; x7e; xee; x43; xd3; xf0; x60; xcd; x5d; x8a; x1a; xb7; x27; xf1; x61; xcc; x5c; x8b; x1b; xb6; x26; x05; x95; x38; xa8; x7f; xef; x42; xd2; xfb; x6b; xc6; x56; x81; x11; xbc; x2c; x0f; x9f; x32; xa2; x75; xe5; x48; xd8; x0e; x9e; x33; xa3; x74; xe4; x49; xd9; xfa; x6a; xc7; x57; x80; x10; xbd; x2d; x0c; x9c; x31; xa1; x76; xe6; x4b; xdb; xf8; x68; xc5; x55; x82; x12; xbf; x2f; xf9; x69; xc4; x54; x83; x13; xbe; x2e; x0d; x9d; x30; xa0; x77; xe7; x4a; xda; x08; x98; x35; xa5; x72; xe2; x4f; xdf; xfc; x6c; xc1; x51; x86; x16; xbb; x2b; xfd; x6d; xc0; x50; x87; x17; xba; x2a; x09; x99; x34; xa4; x73; xe3; x4e; xde; xff; x6f; xc2; x52; x85; x15; xb8; x28; x0b; x9b; x36; xa6; x71; xe1; x4c; xdc; x0a; x9a; x37; xa7; x70; xe0; x4d; xdd; xfe; x6e; xc3; x53; x84; x14; xb9; x29];
   [x00; x91; x3f; xae; x7e; xef; x41; xd0; xfc; x6d; xc3; x52; x82; x13; xbd; x2c; xe5; x74; xda; x4b; x9b; x0a; xa4; x35; x19; x88; x26; xb7; x67; xf6; x58; xc9; xd7; x46; xe8; x79; xa9; x38; x96; x07; x2b; xba; x14; x85; x55; xc4; x6a; xfb; x32; xa3; x0d; x9c; x4c; xdd; x73; xe2; xce; x5f; xf1; x60; xb0; x21; x8f; x1e; xb3; x22; x8c; x1d; xcd; x5c; xf2; x63; x4f; xde; x70; xe1; x31; xa0; x0e; x9f; x56; xc7; x69; xf8; x28; xb9; x17; x86; xaa; x3b; x95; x04; xd4; x45; xeb; x7a; x64; xf5; x5b; xca; x1a; x8b; x25; xb4; x98; x09; xa7; x36; xe6; x77; xd9; x48; x81; x10; xbe; x2f; xff; x6e; xc0; x51; x7d; xec; x42; xd3; x03; x92; x3c; xad; x7b; xea; x44; xd5; x05; x94; x3a; xab; x87; x16; xb8; x29; xf9; x68; xc6; x57; x9e; x0f; xa1; x30; xe0; x71; xdf; x4e; x62; xf3; x5d; xcc; x1c; x8d; x23; xb2; xac; x3d; x93; x02; xd2; x43; xed; x7c; x50; xc1; x6f; xfe; x2e; xbf; x11; x80; x49; xd8; x76; xe7; x37; xa6; x08; x99; xb5; x24; x8a; x1b; xcb; x5a; xf4; x65; xc8; x59; xf7; x66; xb6; x27; x89; x18; x34; xa5; x0b; x9a; x4a; xdb; x75; xe4; x2d; xbc; x12; x83; x53; xc2; x6c; xfd; xd1; x40; xee; x7f; xaf; x3e; x90; x01; x1f; x8e; x20; xb1; x61; xf0; x5e; xcf; xe3; x72; xdc; x4d; x9d; x0c; xa2; x33; xfa; x6b; xc5; x54; x84; x15; xbb; x2a; x06; x97; x39; xa8; x78; xe9; x47; xd6];
   [x00; x92; x39; xab; x72; xe0; x4b; xd9; xe4; x76; xdd; x4f; x96; x04; xaf; x3d; xd5; x47; xec; x7e; xa7; x35; x9e; x0c; x31; xa3; x08; x9a; x43; xd1; x7a; xe8; xb7; x25; x8e; x1c; xc5; x57; xfc; x6e; x53; xc1; x6a; xf8; x21; xb3; x18; x8a; x62; xf0; x5b; xc9; x10; x82; x29; xbb; x86; x14; xbf; x2d; xf4; x66; xcd; x5f; x73; xe1; x4a; xd8; x01; x93; x38; xaa; x97; x05; xae; x3c; xe5; x77; xdc; x4e; xa6; x34; x9f; x0d; xd4; x46; xed; x7f; x42; xd0; x7b; xe9; x30; xa2; x09; x9b; xc4; x56; xfd; x6f; xb6; x24; x8f; x1d; x20; xb2; x19; x8b; x52; xc0; x6b; xf9; x11; x83; x28; xba; x63; xf1; x5a; xc8; xf5; x67; xcc; x5e; x87; x15; xbe; x2c; xe6; x74; xdf; x4d; x94; x06; xad; x3f; x02; x90; x3b; xa9; x70; xe2; x49; xdb; x33; xa1; x0a; x98; x41; xd3; x78; xea; xd7; x45; xee; x7c; xa5; x37; x9c; x0e; x51; xc3; x68; xfa; x23; xb1; x1a; x88; xb5; x27; x8c; x1e; xc7; x55; xfe; x6c; x84; x16; xbd; x2f; xf6; x64; xcf; x5d; x60; xf2; x59; xcb; x12; x80; x2b; xb9; x95; x07; xac; x3e; xe7; x75; xde; x4c; x71; xe3; x48; xda; x03; x91; x3a; xa8; x40; xd2; x79; xeb; x32; xa0; x0b; x99; xa4; x36; x9d; x0f; xd6; x44; xef; x7d; x22; xb0; x1b; x89; x50; xc2; x69; xfb; xc6; x54; xff; x6d; xb4; x26; x8d; x1f; xf7; x65; xce; x5c; x85; x17; xbc; x2e; x13; x81; x2a; xb8; x61; xf3; x58; xca];
   [x00; x93; x3b; xa8; x76; xe5; x4d; xde; xec; x7f; xd7; x44; x9a; x09; xa1; x32; xc5; x56; xfe; x6d; xb3; x20; x88; x1b; x29; xba; x12; x81; x5f; xcc; x64; xf7; x97; x04; xac; x3f; xe1; x72; xda; x49; x7b; xe8; x40; xd3; x0d; x9e; x36; xa5; x52; xc1; x69; xfa; x24; xb7; x1f; x8c; xbe; x2d; x85; x16; xc8; x5b; xf3; x60; x33; xa0; x08; x9b; x45; xd6; x7e; xed; xdf; x4c; xe4; x77; xa9; x3a; x92; x01; xf6; x65; xcd; x5e; x80; x13; xbb; x28; x1a; x89; x21; xb2; x6c; xff; x57; xc4; xa4; x37; x9f; x0c; xd2; x41; xe9; x7a; x48; xdb; x73; xe0; x3e; xad; x05; x96; x61; xf2; x5a; xc9; x17; x84; x2c; xbf; x8d; x1e; xb6; x25; xfb; x68; xc0; x53; x66; xf5; x5d; xce; x10; x83; x2b; xb8; x8a; x19; xb1; x22; xfc; x6f; xc7; x54; xa3; x30; x98; x0b; xd5; x46; xee; x7d; x4f; xdc; x74; xe7; x39; xaa; x02; x91; xf1; x62; xca; x59; x87; x14; xbc; x2f; x1d; x8e; x26; xb5; x6b; xf8; x50; xc3; x34; xa7; x0f; x9c; x42; xd1; x79; xea; xd8; x4b; xe3; x70; xae; x3d; x95; x06; x55; xc6; x6e; xfd; x23; xb0; x18; x8b; xb9; x2a; x82; x11; xcf; x5c; xf4; x67; x90; x03; xab; x38; xe6; x75; xdd; x4e; x7c; xef; x47; xd4; x0a; x99; x31; xa2; xc2; x51; xf9; x6a; xb4; x27; x8f; x1c; x2e; xbd; x15; x86; x58; xcb; x63; xf0; x07; x94; x3c; xaf; x71; xe2; x4a; xd9; xeb; x78; xd0; x43; x9d; x0e; xa6; x35];
   [x00; x94; x35; xa1; x6a; xfe; x5f; xcb; xd4; x40; xe1; x75; xbe; x2a; x8b; x1f; xb5; x21; x80; x14; xdf; x4b; xea; x7e; x61; xf5; x54; xc0; x0b; x9f; x3e; xaa; x77; xe3; x42; xd6; x1d; x89; x28; xbc; xa3; x37; x96; x02; xc9; x5d; xfc; x68; xc2; x56; xf7; x63; xa8; x3c; x9d; x09; x16; x82; x23; xb7; x7c; xe8; x49; xdd; xee; x7a; xdb; x4f; x84; x10; xb1; x25; x3a; xae; x0f; x9b; x50; xc4; x65; xf1; x5b; xcf; x6e; xfa; x31; xa5; x04; x90; x8f; x1b; xba; x2e; xe5; x71; xd0; x44; x99; x0d; xac; x38; xf3; x67; xc6; x52; x4d; xd9; x78; xec; x27; xb3; x12; x86; x2c; xb8; x19; x8d; x46; xd2; x73; xe7; xf8; x6c; xcd; x59; x92; x06; xa7; x33; xc1; x55; xf4; x60; xab; x3f; x9e; x0a; x15; x81; x20; xb4; x7f; xeb; x4a; xde; x74; xe0; x41; xd5; x1e; x8a; x2b; xbf; xa0; x34; x95; x01; xca; x5e; xff; x6b; xb6; x22; x83; x17; xdc; x48; xe9; x7d; x62; xf6; x57; xc3; x08; x9c; x3d; xa9; x03; x97; x36; xa2; x69; xfd; x5c; xc8; xd7; x43; xe2; x76; xbd; x29; x88; x1c; x2f; xbb; x1a; x8e; x45; xd1; x70; xe4; xfb; x6f; xce; x5a; x91; x05; xa4; x30; x9a; x0e; xaf; x3b; xf0; x64; xc5; x51; x4e; xda; x7b; xef; x24; xb0; x11; x85; x58; xcc; x6d; xf9; x32; xa6; x07; x93; x8c; x18; xb9; x2d; xe6; x72; xd3; x47; xed; x79; xd8; x4c; x87; x13; xb2; x26; x39; xad; x0c; x98; x53; xc7; x66; xf2];
   [x00; x95; x37; xa2; x6e; xfb; x59; xcc; xdc; x49; xeb; x7e; xb2; x27; x85; x10; xa5; x30; x92; x07; xcb; x5e; xfc; x69; x79; xec; x4e; xdb; x17; x82; x20; xb5; x57; xc2; x60; xf5; x39; xac; x0e; x9b; x8b; x1e; xbc; x29; xe5; x70; xd2; x47; xf2; x67; xc5; x50; x9c; x09; xab; x3e; x2e; xbb; x19; x8c; x40; xd5; x77; xe2; xae; x3b; x99; x0c; xc0; x55; xf7; x62; x72; xe7; x45; xd0; x1c; x89; x2b; xbe; x0b; x9e; x3c; xa9; x65; xf0; x52; xc7; xd7; x42; xe0; x75; xb9; x2c; x8e; x1b; xf9; x6c; xce; x5b; x97; x02; xa0; x35; x25; xb0; x12; x87; x4b; xde; x7c; xe9; x5c; xc9; x6b; xfe; x32; xa7; x05; x90; x80; x15; xb7; x22; xee; x7b; xd9; x4c; x41; xd4; x76; xe3; x2f; xba; x18; x8d; x9d; x08; xaa; x3f; xf3; x66; xc4; x51; xe4; x71; xd3; x46; x8a; x1f; xbd; x28; x38; xad; x0f; x9a; x56; xc3; x61; xf4; x16; x83; x21; xb4; x78; xed; x4f; xda; xca; x5f; xfd; x68; xa4; x31; x93; x06; xb3; x26; x84; x11; xdd; x48; xea; x7f; x6f; xfa; x58; xcd; x01; x94; x36; xa3; xef; x7a; xd8; x4d; x81; x14; xb6; x23; x33; xa6; x04; x91; x5d; xc8; x6a; xff; x4a; xdf; x7d; xe8; x24; xb1; x13; x86; x96; x03; xa1; x34; xf8; x6d; xcf; x5a; xb8; x2d; x8f; x1a; xd6; x43; xe1; x74; x64; xf1; x53; xc6; x0a; x9f; x3d; xa8; x1d; x88; x2a; xbf; x73; xe6; x44; xd1; xc1; x54; xf6; x63; xaf; x3a; x98; x0d];
   [x00; x96; x31; xa7; x62; xf4; x53; xc5; xc4; x52; xf5; x63; xa6; x30; x97; x01; x95; x03; xa4; x32; xf7; x61; xc6; x50; x51; xc7; x60; xf6; x33; xa5; x02; x94; x37; xa1; x06; x90; x55; xc3; x64; xf2; xf3; x65; xc2; x54; x91; x07; xa0; x36; xa2; x34; x93; x05; xc0; x56; xf1; x67; x66; xf0; x57; xc1; x04; x92; x35; xa3; x6e; xf8; x5f; xc9; x0c; x9a; x3d; xab; xaa; x3c; x9b; x0d; xc8; x5e; xf9; x6f; xfb; x6d; xca; x5c; x99; x0f; xa8; x3e; x3f; xa9; x0e; x98; x5d; xcb; x6c; xfa; x59; xcf; x68; xfe; x3b; xad; x0a; x9c; x9d; x0b; xac; x3a; xff; x69; xce; x58; xcc; x5a; xfd; x6b; xae; x38; x9f; x09; x08; x9e; x39; xaf; x6a; xfc; x5b; xcd; xdc; x4a; xed; x7b; xbe; x28; x8f; x19; x18; x8e; x29; xbf; x7a; xec; x4b; xdd; x49; xdf; x78; xee; x2b; xbd; x1a; x8c; x8d; x1b; xbc; x2a; xef; x79; xde; x48; xeb; x7d; xda; x4c; x89; x1f; xb8; x2e; x2f; xb9; x1e; x88; x4d; xdb; x7c; xea; x7e; xe8; x4f; xd9; x1c; x8a; x2d; xbb; xba; x2c; x8b; x1d; xd8; x4e; xe9; x7f; xb2; x24; x83; x15; xd0; x46; xe1; x77; x76; xe0; x47; xd1; x14; x82; x25; xb3; x27; xb1; x16; x80; x45; xd3; x74; xe2; xe3; x75; xd2; x44; x81; x17; xb0; x26; x85; x13; xb4; x22; xe7; x71; xd6; x40; x41; xd7; x70; xe6; x23; xb5; x12; x84; x10; x86; x21; xb7; x72; xe4; x43; xd5; xd4; x42; xe5; x73; xb6; x20; x87; x11];
   [x00; x97; x33; xa4; x66; xf1; x55; xc2; xcc; x5b; xff; x68; xaa; x3d; x99; x0e; x85; x12; xb6; x21; xe3; x74; xd0; x47; x49; xde; x7a; xed; x2f; xb8; x1c; x8b; x17; x80; x24; xb3; x71; xe6; x42; xd5; xdb; x4c; xe8; x7f; xbd; x2a; x8e; x19; x92; x05; xa1; x36; xf4; x63; xc7; x50; x5e; xc9; x6d; xfa; x38; xaf; x0b; x9c; x2e; xb9; x1d; x8a; x48; xdf; x7b; xec; xe2; x75; xd1; x46; x84; x13; xb7; x20; xab; x3c; x98; x0f; xcd; x5a; xfe; x69; x67; xf0; x54; xc3; x01; x96; x32; xa5; x39; xae; x0a; x9d; x5f; xc8; x6c; xfb; xf5; x62; xc6; x51; x93; x04; xa0; x37; xbc; x2b; x8f; x18; xda; x4d; xe9; x7e; x70; xe7; x43; xd4; x16; x81; x25; xb2; x5c; xcb; x6f; xf8; x3a; xad; x09; x9e; x90; x07; xa3; x34; xf6; x61; xc5; x52; xd9; x4e; xea; x7d; xbf; x28; x8c; x1b; x15; x82; x26; xb1; x73; xe4; x40; xd7; x4b; xdc; x78; xef; x2d; xba; x1e; x89; x87; x10; xb4; x23; xe1; x76; xd2; x45; xce; x59; xfd; x6a; xa8; x3f; x9b; x0c; x02; x95; x31; xa6; x64; xf3; x57; xc0; x72; xe5; x41; xd6; x14; x83; x27; xb0; xbe; x29; x8d; x1a; xd8; x4f; xeb; x7c; xf7; x60; xc4; x53; x91; x06; xa2; x35; x3b; xac; x08; x9f; x5d; xca; x6e; xf9; x65; xf2; x56; xc1; x03; x94; x30; xa7; xa9; x3e; x9a; x0d; xcf; x58; xfc; x6b; xe0; x77; xd3; x44; x86; x11; xb5; x22; x2c; xbb; x1f; x88; x4a; xdd; x79; xee];
   [x00; x98; x2d; xb5; x5a; xc2; x77; xef; xb4; x2c; x99; x01; xee; x76; xc3; x5b; x75; xed; x58; xc0; x2f; xb7; x02; x9a; xc1; x59; xec; x74; x9b; x03; xb6; x2e; xea; x72; xc7; x5f; xb0; x28; x9d; x05; x5e; xc6; x73; xeb; x04; x9c; x29; xb1; x9f; x07; xb2; x2a; xc5; x5d; xe8; x70; x2b; xb3; x06; x9e; x71; xe9; x5c; xc4; xc9; x51; xe4; x7c; x93; x0b; xbe; x26; x7d; xe5; x50; xc8; x27; xbf; x0a; x92; xbc; x24; x91; x09; xe6; x7e; xcb; x53; x08; x90; x25; xbd; x52; xca; x7f; xe7; x23; xbb; x0e; x96; x79; xe1; x54; xcc; x97; x0f; xba; x22; xcd; x55; xe0; x78; x56; xce; x7b; xe3; x0c; x94; x21; xb9; xe2; x7a; xcf; x57; xb8; x20; x95; x0d; x8f; x17; xa2; x3a; xd5; x4d; xf8; x60; x3b; xa3; x16; x8e; x61; xf9; x4c; xd4; xfa; x62; xd7; x4f; xa0; x38; x8d; x15; x4e; xd6; x63; xfb; x14; x8c; x39; xa1; x65; xfd; x48; xd0; x3f; xa7; x12; x8a; xd1; x49; xfc; x64; x8b; x13; xa6; x3e; x10; x88; x3d; xa5; x4a; xd2; x67; xff; xa4; x3c; x89; x11; xfe; x66; xd3; x4b; x46; xde; x6b; xf3; x1c; x84; x31; xa9; xf2; x6a; xdf; x47; xa8; x30; x85; x1d; x33; xab; x1e; x86; x69; xf1; x44; xdc; x87; x1f; xaa; x32; xdd; x45; xf0; x68; xac; x34; x81; x19; xf6; x6e; xdb; x43; x18; x80; x35; xad; x42; xda; x6f; xf7; xd9; x41; xf4; x6c; x83; x1b; xae; x36; x6d; xf5; x40; xd8; x37; xaf; x1a; x82];
   [x00; x99; x2f; xb6; x5e; xc7; x71; xe8; xbc; x25; x93; x0a; xe2; x7b; xcd; x54; x65; xfc; x4a; xd3; x3b; xa2; x14; x8d; xd9; x40; xf6; x6f; x87; x1e; xa8; x31; xca; x53; xe5; x7c; x94; x0d; xbb; x22; x76; xef; x59; xc0; x28; xb1; x07; x9e; xaf; x36; x80; x19; xf1; x68; xde; x47; x13; x8a; x3c; xa5; x4d; xd4; x62; xfb; x89; x10; xa6; x3f; xd7; x4e; xf8; x61; x35; xac; x1a; x83; x6b; xf2; x44; xdd; xec; x75; xc3; x5a; xb2; x2b; x9d; x04; x50; xc9; x7f; xe6; x0e; x97; x21; xb8; x43; xda; x6c; xf5; x1d; x84; x32; xab; xff; x66; xd0; x49; xa1; x38; x8e; x17; x26; xbf; x09; x90; x78; xe1; x57; xce; x9a; x03; xb5; x2c; xc4; x5d; xeb; x72; x0f; x96; x20; xb9; x51; xc8; x7e; xe7; xb3; x2a; x9c; x05; xed; x74; xc2; x5b; x6a; xf3; x45; xdc; x34; xad; x1b; x82; xd6; x4f; xf9; x60; x88; x11; xa7; x3e; xc5; x5c; xea; x73; x9b; x02; xb4; x2d; x79; xe0; x56; xcf; x27; xbe; x08; x91; xa0; x39; x8f; x16; xfe; x67; xd1; x48; x1c; x85; x33; xaa; x42; xdb; x6d; xf4; x86; x1f; xa9; x30; xd8; x41; xf7; x6e; x3a; xa3; x15; x8c; x64; xfd; x4b; xd2; xe3; x7a; xcc; x55; xbd; x24; x92; x0b; x5f; xc6; x70; xe9; x01; x98; x2e; xb7; x4c; xd5; x63; xfa; x12; x8b; x3d; xa4; xf0; x69; xdf; x46; xae; x37; x81; x18; x29; xb0; x06; x9f; x77; xee; x58; xc1; x95; x0c; xba; x23; xcb; x52; xe4; x7d];
   [x00; x9a; x29; xb3; x52; xc8; x7b; xe1; xa4; x3e; x8d; x17; xf6; x6c; xdf; x45; x55; xcf; x7c; xe6; x07; x9d; x2e; xb4; xf1; x6b; xd8; x42; xa3; x39; x8a; x10; xaa; x30; x83; x19; xf8; x62; xd1; x4b; x0e; x94; x27; xbd; x5c; xc6; x75; xef; xff; x65; xd6; x4c; xad; x37; x84; x1e; x5b; xc1; x72; xe8; x09; x93; x20; xba; x49; xd3; x60; xfa; x1b; x81; x32; xa8; xed; x77; xc4; x5e; xbf; x25; x96; x0c; x1c; x86; x35; xaf; x4e; xd4; x67; xfd; xb8; x22; x91; x0b; xea; x70; xc3; x59; xe3; x79; xca; x50; xb1; x2b; x98; x02; x47; xdd; x6e; xf4; x15; x8f; x3c; xa6; xb6; x2c; x9f; x05; xe4; x7e; xcd; x57; x12; x88; x3b; xa1; x40; xda; x69; xf3; x92; x08; xbb; x21; xc0; x5a; xe9; x73; x36; xac; x1f; x85; x64; xfe; x4d; xd7; xc7; x5d; xee; x74; x95; x0f; xbc; x26; x63; xf9; x4a; xd0; x31; xab; x18; x82; x38; xa2; x11; x8b; x6a; xf0; x43; xd9; x9c; x06; xb5; x2f; xce; x54; xe7; x7d; x6d; xf7; x44; xde; x3f; xa5; x16; x8c; xc9; x53; xe0; x7a; x9b; x01; xb2; x28; xdb; x41; xf2; x68; x89; x13; xa0; x3a; x7f; xe5; x56; xcc; x2d; xb7; x04; x9e; x8e; x14; xa7; x3d; xdc; x46; xf5; x6f; x2a; xb0; x03; x99; x78; xe2; x51; xcb; x71; xeb; x58; xc2; x23; xb9; x0a; x90; xd5; x4f; xfc; x66; x87; x1d; xae; x34; x24; xbe; x0d; x97; x76; xec; x5f; xc5; x80; x1a; xa9; x33; xd2; x48; xfb; x61];
   [x00; x9b; x2b; xb0; x56; xcd; x7d; xe6; xac; x37; x87; x1c; xfa; x61; xd1; x4a; x45; xde; x6e; xf5; x13; x88; x38; xa3; xe9; x72; xc2; x59; xbf; x24; x94; x0f; x8a; x11; xa1; x3a; xdc; x47; xf7; x6c; x26; xbd; x0d; x96; x70; xeb; x5b; xc0; xcf; x54; xe4; x7f; x99; x02; xb2; x29; x63; xf8; x48; xd3; x35; xae; x1e; x85; x09; x92; x22; xb9; x5f; xc4; x74; xef; xa5; x3e; x8e; x15; xf3; x68; xd8; x43; x4c; xd7; x67; xfc; x1a; x81; x31; xaa; xe0; x7b; xcb; x50; xb6; x2d; x9d; x06; x83; x18; xa8; x33; xd5; x4e; xfe; x65; x2f; xb4; x04; x9f; x79; xe2; x52; xc9; xc6; x5d; xed; x76; x90; x0b; xbb; x20; x6a; xf1; x41; xda; x3c; xa7; x17; x8c; x12; x89; x39; xa2; x44; xdf; x6f; xf4; xbe; x25; x95; x0e; xe8; x73; xc3; x58; x57; xcc; x7c; xe7; x01; x9a; x2a; xb1; xfb; x60; xd0; x4b; xad; x36; x86; x1d; x98; x03; xb3; x28; xce; x55; xe5; x7e; x34; xaf; x1f; x84; x62; xf9; x49; xd2; xdd; x46; xf6; x6d; x8b; x10; xa0; x3b; x71; xea; x5a; xc1; x27; xbc; x0c; x97; x1b; x80; x30; xab; x4d; xd6; x66; xfd; xb7; x2c; x9c; x07; xe1; x7a; xca; x51; x5e; xc5; x75; xee; x08; x93; x23; xb8; xf2; x69; xd9; x42; xa4; x3f; x8f; x14; x91; x0a; xba; x21; xc7; x5c; xec; x77; x3d; xa6; x16; x8d; x6b; xf0; x40; xdb; xd4; x4f; xff; x64; x82; x19; xa9; x32; x78; xe3; x53; xc8; x2e; xb5; x05; x9e];
   [x00; x9c; x25; xb9; x4a; xd6; x6f; xf3; x94; x08; xb1; x2d; xde; x42; xfb; x67; x35; xa9; x10; x8c; x7f; xe3; x5a; xc6; xa1; x3d; x84; x18; xeb; x77; xce; x52; x6a; xf6; x4f; xd3; x20; xbc; x05; x99; xfe; x62; xdb; x47; xb4; x28; x91; x0d; x5f; xc3; x7a; xe6; x15; x89; x30; xac; xcb; x57; xee; x72; x81; x1d; xa4; x38; xd4; x48; xf1; x6d; x9e; x02; xbb; x27; x40; xdc; x65; xf9; x0a; x96; x2f; xb3; xe1; x7d; xc4; x58; xab; x37; x8e; x12; x75; xe9; x50; xcc; x3f; xa3; x1a; x86; xbe; x22; x9b; x07; xf4; x68; xd1; x4d; x2a; xb6; x0f; x93; x60; xfc; x45; xd9; x8b; x17; xae; x32; xc1; x5d; xe4; x78; x1f; x83; x3a; xa6; x55; xc9; x70; xec; xb5; x29; x90; x0c; xff; x63; xda; x46; x21; xbd; x04; x98; x6b; xf7; x4e; xd2; x80; x1c; xa5; x39; xca; x56; xef; x73; x14; x88; x31; xad; x5e; xc2; x7b; xe7; xdf; x43; xfa; x66; x95; x09; xb0; x2c; x4b; xd7; x6e; xf2; x01; x9d; x24; xb8; xea; x76; xcf; x53; xa0; x3c; x85; x19; x7e; xe2; x5b; xc7; x34; xa8; x11; x8d; x61; xfd; x44; xd8; x2b; xb7; x0e; x92; xf5; x69; xd0; x4c; xbf; x23; x9a; x06; x54; xc8; x71; xed; x1e; x82; x3b; xa7; xc0; x5c; xe5; x79; x8a; x16; xaf; x33; x0b; x97; x2e; xb2; x41; xdd; x64; xf8; x9f; x03; xba; x26; xd5; x49; xf0; x6c; x3e; xa2; x1b; x87; x74; xe8; x51; xcd; xaa; x36; x8f; x13; xe0; x7c; xc5; x59];
   [x00; x9d; x27; xba; x4e; xd3; x69; xf4; x9c; x01; xbb; x26; xd2; x4f; xf5; x68; x25; xb8; x02; x9f; x6b; xf6; x4c; xd1; xb9; x24; x9e; x03; xf7; x6a; xd0; x4d; x4a; xd7; x6d; xf0; x04; x99; x23; xbe; xd6; x4b; xf1; x6c; x98; x05; xbf; x22; x6f; xf2; x48; xd5; x21; xbc; x06; x9b; xf3; x6e; xd4; x49; xbd; x20; x9a; x07; x94; x09; xb3; x2e; xda; x47; xfd; x60; x08; x95; x2f; xb2; x46; xdb; x61; xfc; xb1; x2c; x96; x0b; xff; x62; xd8; x45; x2d; xb0; x0a; x97; x63; xfe; x44; xd9; xde; x43; xf9; x64; x90; x0d; xb7; x2a; x42; xdf; x65; xf8; x0c; x91; x2b; xb6; xfb; x66; xdc; x41; xb5; x28; x92; x0f; x67; xfa; x40; xdd; x29; xb4; x0e; x93; x35; xa8; x12; x8f; x7b; xe6; x5c; xc1; xa9; x34; x8e; x13; xe7; x7a; xc0; x5d; x10; x8d; x37; xaa; x5e; xc3; x79; xe4; x8c; x11; xab; x36; xc2; x5f; xe5; x78; x7f; xe2; x58; xc5; x31; xac; x16; x8b; xe3; x7e; xc4; x59; xad; x30; x8a; x17; x5a; xc7; x7d; xe0; x14; x89; x33; xae; xc6; x5b; xe1; x7c; x88; x15; xaf; x32; xa1; x3c; x86; x1b; xef; x72; xc8; x55; x3d; xa0; x1a; x87; x73; xee; x54; xc9; x84; x19; xa3; x3e; xca; x57; xed; x70; x18; x85; x3f; xa2; x56; xcb; x71; xec; xeb; x76; xcc; x51; xa5; x38; x82; x1f; x77; xea; x50; xcd; x39; xa4; x1e; x83; xce; x53; xe9; x74; x80; x1d; xa7; x3a; x52; xcf; x75; xe8; x1c; x81; x3b; xa6];
   [x00; x9e; x21; xbf; x42; xdc; x63; xfd; x84; x1a; xa5; x3b; xc6; x58; xe7; x79; x15; x8b; x34; xaa; x57; xc9; x76; xe8; x91; x0f; xb0; x2e; xd3; x4d; xf2; x6c; x2a; xb4; x0b; x95; x68; xf6; x49; xd7; xae; x30; x8f; x11; xec; x72; xcd; x53; x3f; xa1; x1e; x80; x7d; xe3; x5c; xc2; xbb; x25; x9a; x04; xf9; x67; xd8; x46; x54; xca; x75; xeb; x16; x88; x37; xa9; xd0; x4e; xf1; x6f; x92; x0c; xb3; x2d; x41; xdf; x60; xfe; x03; x9d; x22; xbc; xc5; x5b; xe4; x7a; x87; x19; xa6; x38; x7e; xe0; x5f; xc1; x3c; xa2; x1d; x83; xfa; x64; xdb; x45; xb8; x26; x99; x07; x6b; xf5; x4a; xd4; x29; xb7; x08; x96; xef; x71; xce; x50; xad; x33; x8c; x12; xa8; x36; x89; x17; xea; x74; xcb; x55; x2c; xb2; x0d; x93; x6e; xf0; x4f; xd1; xbd; x23; x9c; x02; xff; x61; xde; x40; x39; xa7; x18; x86; x7b; xe5; x5a; xc4; x82; x1c; xa3; x3d; xc0; x5e; xe1; x7f; x06; x98; x27; xb9; x44; xda; x65; xfb; x97; x09; xb6; x28; xd5; x4b; xf4; x6a; x13; x8d; x32; xac; x51; xcf; x70; xee; xfc; x62; xdd; x43; xbe; x20; x9f; x01; x78; xe6; x59; xc7; x3a; xa4; x1b; x85; xe9; x77; xc8; x56; xab; x35; x8a; x14; x6d; xf3; x4c; xd2; x2f; xb1; x0e; x90; xd6; x48; xf7; x69; x94; x0a; xb5; x2b; x52; xcc; x73; xed; x10; x8e; x31; xaf; xc3; x5d; xe2; x7c; x81; x1f; xa0; x3e; x47; xd9; x66; xf8; x05; x9b; x24; xba];
   [x00; x9f; x23; xbc; x46; xd9; x65; xfa; x8c; x13; xaf; x30; xca; x55; xe9; x76; x05; x9a; x26; xb9; x43; xdc; x60; xff; x89; x16; xaa; x35; xcf; x50; xec; x73; x0a; x95; x29; xb6; x4c; xd3; x6f; xf0; x86; x19; xa5; x3a; xc0; x5f; xe3; x7c; x0f; x90; x2c; xb3; x49; xd6; x6a; xf5; x83; x1c; xa0; x3f; xc5; x5a; xe6; x79; x14; x8b; x37; xa8; x52; xcd; x71; xee; x98; x07; xbb; x24; xde; x41; xfd; x62; x11; x8e; x32; xad; x57; xc8; x74; xeb; x9d; x02; xbe; x21; xdb; x44; xf8; x67; x1e; x81; x3d; xa2; x58; xc7; x7b; xe4; x92; x0d; xb1; x2e; xd4; x4b; xf7; x68; x1b; x84; x38; xa7; x5d; xc2; x7e; xe1; x97; x08; xb4; x2b; xd1; x4e; xf2; x6d; x28; xb7; x0b; x94; x6e; xf1; x4d; xd2; xa4; x3b; x87; x18; xe2; x7d; xc1; x5e; x2d; xb2; x0e; x91; x6b; xf4; x48; xd7; xa1; x3e; x82; x1d; xe7; x78; xc4; x5b; x22; xbd; x01; x9e; x64; xfb; x47; xd8; xae; x31; x8d; x12; xe8; x77; xcb; x54; x27; xb8; x04; x9b; x61; xfe; x42; xdd; xab; x34; x88; x17; xed; x72; xce; x51; x3c; xa3; x1f; x80; x7a; xe5; x59; xc6; xb0; x2f; x93; x0c; xf6; x69; xd5; x4a; x39; xa6; x1a; x85; x7f; xe0; x5c; xc3; xb5; x2a; x96; x09; xf3; x6c; xd0; x4f; x36; xa9; x15; x8a; x70; xef; x53; xcc; xba; x25; x99; x06; xfc; x63; xdf; x40; x33; xac; x10; x8f; x75; xea; x56; xc9; xbf; x20; x9c; x03; xf9; x66; xda; x45];
   [x00; xa0; x5d; xfd; xba; x1a; xe7; x47; x69; xc9; x34; x94; xd3; x73; x8e; x2e; xd2; x72; x8f; x2f; x68; xc8; x35; x95; xbb; x1b; xe6; x46; x01; xa1; x5c; xfc; xb9; x19; xe4; x44; x03; xa3; x5e; xfe; xd0; x70; x8d; x2d; x6a; xca; x37; x97; x6b; xcb; x36; x96; xd1; x71; x8c; x2c; x02; xa2; x5f; xff; xb8; x18; xe5; x45; x6f; xcf; x32; x92; xd5; x75; x88; x28; x06; xa6; x5b; xfb; xbc; x1c; xe1; x41; xbd; x1d; xe0; x40; x07; xa7; x5a; xfa; xd4; x74; x89; x29; x6e; xce; x33; x93; xd6; x76; x8b; x2b; x6c; xcc; x31; x91; xbf; x1f; xe2; x42; x05; xa5; x58; xf8; x04; xa4; x59; xf9; xbe; x1e; xe3; x43; x6d; xcd; x30; x90; xd7; x77; x8a; x2a; xde; x7e; x83; x23; x64; xc4; x39; x99; xb7; x17; xea; x4a; x0d; xad; x50; xf0; x0c; xac; x51; xf1; xb6; x16; xeb; x4b; x65; xc5; x38; x98; xdf; x7f; x82; x22; x67; xc7; x3a; x9a; xdd; x7d; x80; x20; x0e; xae; x53; xf3; xb4; x14; xe9; x49; xb5; x15; xe8; x48; x0f; xaf; x52; xf2; xdc; x7c; x81; x21; x66; xc6; x3b; x9b; xb1; x11; xec; x4c; x0b; xab; x56; xf6; xd8; x78; x85; x25; x62; xc2; x3f; x9f; x63; xc3; x3e; x9e; xd9; x79; x84; x24; x0a; xaa; x57; xf7; xb0; x10; xed; x4d; x08; xa8; x55; xf5; xb2; x12; xef; x4f; x61; xc1; x3c; x9c; xdb; x7b; x86; x26; xda; x7a; x87; x27; x60; xc0; x3d; x9d; xb3; x13; xee; x4e; x09; xa9; x54; xf4];
   [x00; xa1; x5f; xfe; xbe; x1f; xe1; x40; x61; xc0; x3e; x9f; xdf; x7e; x80; x21; xc2; x63; x9d; x3c; x7c; xdd; x23; x82; xa3; x02; xfc; x5d; x1d; xbc; x42; xe3; x99; x38; xc6; x67; x27; x86; x78; xd9; xf8; x59; xa7; x06; x46; xe7; x19; xb8; x5b; xfa; x04; xa5; xe5; x44; xba; x1b; x3a; x9b; x65; xc4; x84; x25; xdb; x7a; x2f; x8e; x70; xd1; x91; x30; xce; x6f; x4e; xef; x11; xb0; xf0; x51; xaf; x0e; xed; x4c; xb2; x13; x53; xf2; x0c; xad; x8c; x2d; xd3; x72; x32; x93; x6d; xcc; xb6; x17; xe9; x48; x08; xa9; x57; xf6; xd7; x76; x88; x29; x69; xc8; x36; x97; x74; xd5; x2b; x8a; xca; x6b; x95; x34; x15; xb4; x4a; xeb; xab; x0a; xf4; x55; x5e; xff; x01; xa0; xe0; x41; xbf; x1e; x3f; x9e; x60; xc1; x81; x20; xde; x7f; x9c; x3d; xc3; x62; x22; x83; x7d; xdc; xfd; x5c; xa2; x03; x43; xe2; x1c; xbd; xc7; x66; x98; x39; x79; xd8; x26; x87; xa6; x07; xf9; x58; x18; xb9; x47; xe6; x05; xa4; x5a; xfb; xbb; x1a; xe4; x45; x64; xc5; x3b; x9a; xda; x7b; x85; x24; x71; xd0; x2e; x8f; xcf; x6e; x90; x31; x10; xb1; x4f; xee; xae; x0f; xf1; x50; xb3; x12; xec; x4d; x0d; xac; x52; xf3; xd2; x73; x8d; x2c; x6c; xcd; x33; x92; xe8; x49; xb7; x16; x56; xf7; x09; xa8; x89; x28; xd6; x77; x37; x96; x68; xc9; x2a; x8b; x75; xd4; x94; x35; xcb; x6a; x4b; xea; x14; xb5; xf5; x54; xaa; x0b];
   [x00; xa2; x59; xfb; xb2; x10; xeb; x49; x79; xdb; x20; x82; xcb; x69; x92; x30; xf2; x50; xab; x09; x40; xe2; x19; xbb; x8b; x29; xd2; x70; x39; x9b; x60; xc2; xf9; x5b; xa0; x02; x4b; xe9; x12; xb0; x80; x22; xd9; x7b; x32; x90; x6b; xc9; x0b; xa9; x52; xf0; xb9; x1b; xe0; x42; x72; xd0; x2b; x89; xc0; x62; x99; x3b; xef; x4d; xb6; x14; x5d; xff; x04; xa6; x96; x34; xcf; x6d; x24; x86; x7d; xdf; x1d; xbf; x44; xe6; xaf; x0d; xf6; x54; x64; xc6; x3d; x9f; xd6; x74; x8f; x2d; x16; xb4; x4f; xed; xa4; x06; xfd; x5f; x6f; xcd; x36; x94; xdd; x7f; x84; x26; xe4; x46; xbd; x1f; x56; xf4; x0f; xad; x9d; x3f; xc4; x66; x2f; x8d; x76; xd4; xc3; x61; x9a; x38; x71; xd3; x28; x8a; xba; x18; xe3; x41; x08; xaa; x51; xf3; x31; x93; x68; xca; x83; x21; xda; x78; x48; xea; x11; xb3; xfa; x58; xa3; x01; x3a; x98; x63; xc1; x88; x2a; xd1; x73; x43; xe1; x1a; xb8; xf1; x53; xa8; x0a; xc8; x6a; x91; x33; x7a; xd8; x23; x81; xb1; x13; xe8; x4a; x03; xa1; x5a; xf8; x2c; x8e; x75; xd7; x9e; x3c; xc7; x65; x55; xf7; x0c; xae; xe7; x45; xbe; x1c; xde; x7c; x87; x25; x6c; xce; x35; x97; xa7; x05; xfe; x5c; x15; xb7; x4c; xee; xd5; x77; x8c; x2e; x67; xc5; x3e; x9c; xac; x0e; xf5; x57; x1e; xbc; x47; xe5; x27; x85; x7e; xdc; x95; x37; xcc; x6e; x5e; xfc; x07; xa5; xec; x4e; xb5; x17];
   [x00; xa3; x5b; xf8; xb6; x15; xed; x4e; x71; xd2; x2a; x89; xc7; x64; x9c; x3f; xe2; x41; xb9; x1a; x54; xf7; x0f; xac; x93; x30; xc8; x6b; x25; x86; x7e; xdd; xd9; x7a; x82; x21; x6f; xcc; x34; x97; xa8; x0b; xf3; x50; x1e; xbd; x45; xe6; x3b; x98; x60; xc3; x8d; x2e; xd6; x75; x4a; xe9; x11; xb2; xfc; x5f; xa7; x04; xaf; x0c; xf4; x57; x19; xba; x42; xe1; xde; x7d; x85; x26; x68; xcb; x33; x90; x4d; xee; x16; xb5; xfb; x58; xa0; x03; x3c; x9f; x67; xc4; x8a; x29; xd1; x72; x76; xd5; x2d; x8e; xc0; x63; x9b; x38; x07; xa4; x5c; xff; xb1; x12; xea; x49; x94; x37; xcf; x6c; x22; x81; x79; xda; xe5; x46; xbe; x1d; x53; xf0; x08; xab; x43; xe0; x18; xbb; xf5; x56; xae; x0d; x32; x91; x69; xca; x84; x27; xdf; x7c; xa1; x02; xfa; x59; x17; xb4; x4c; xef; xd0; x73; x8b; x28; x66; xc5; x3d; x9e; x9a; x39; xc1; x62; x2c; x8f; x77; xd4; xeb; x48; xb0; x13; x5d; xfe; x06; xa5; x78; xdb; x23; x80; xce; x6d; x95; x36; x09; xaa; x52; xf1; xbf; x1c; xe4; x47; xec; x4f; xb7; x14; x5a; xf9; x01; xa2; x9d; x3e; xc6; x65; x2b; x88; x70; xd3; x0e; xad; x55; xf6; xb8; x1b; xe3; x40; x7f; xdc; x24; x87; xc9; x6a; x92; x31; x35; x96; x6e; xcd; x83; x20; xd8; x7b; x44; xe7; x1f; xbc; xf2; x51; xa9; x0a; xd7; x74; x8c; x2f; x61; xc2; x3a; x99; xa6; x05; xfd; x5e; x10; xb3; x4b; xe8];
   [x00; xa4; x55; xf1; xaa; x0e; xff; x5b; x49; xed; x1c; xb8; xe3; x47; xb6; x12; x92; x36; xc7; x63; x38; x9c; x6d; xc9; xdb; x7f; x8e; x2a; x71; xd5; x24; x80; x39; x9d; x6c; xc8; x93; x37; xc6; x62; x70; xd4; x25; x81; xda; x7e; x8f; x2b; xab; x0f; xfe; x5a; x01; xa5; x54; xf0; xe2; x46; xb7; x13; x48; xec; x1d; xb9; x72; xd6; x27; x83; xd8; x7c; x8d; x29; x3b; x9f; x6e; xca; x91; x35; xc4; x60; xe0; x44; xb5; x11; x4a; xee; x1f; xbb; xa9; x0d; xfc; x58; x03; xa7; x56; xf2; x4b; xef; x1e; xba; xe1; x45; xb4; x10; x02; xa6; x57; xf3; xa8; x0c; xfd; x59; xd9; x7d; x8c; x28; x73; xd7; x26; x82; x90; x34; xc5; x61; x3a; x9e; x6f; xcb; xe4; x40; xb1; x15; x4e; xea; x1b; xbf; xad; x09; xf8; x5c; x07; xa3; x52; xf6; x76; xd2; x23; x87; xdc; x78; x89; x2d; x3f; x9b; x6a; xce; x95; x31; xc0; x64; xdd; x79; x88; x2c; x77; xd3; x22; x86; x94; x30; xc1; x65; x3e; x9a; x6b; xcf; x4f; xeb; x1a; xbe; xe5; x41; xb0; x14; x06; xa2; x53; xf7; xac; x08; xf9; x5d; x96; x32; xc3; x67; x3c; x98; x69; xcd; xdf; x7b; x8a; x2e; x75; xd1; x20; x84; x04; xa0; x51; xf5; xae; x0a; xfb; x5f; x4d; xe9; x18; xbc; xe7; x43; xb2; x16; xaf; x0b; xfa; x5e; x05; xa1; x50; xf4; xe6; x42; xb3; x17; x4c; xe8; x19; xbd; x3d; x99; x68; xcc; x97; x33; xc2; x66; x74; xd0; x21; x85; xde; x7a; x8b; x2f];
   [x00; xa5; x57; xf2; xae; x0b; xf9; x5c; x41; xe4; x16; xb3; xef; x4a; xb8; x1d; x82; x27; xd5; x70; x2c; x89; x7b; xde; xc3; x66; x94; x31; x6d; xc8; x3a; x9f; x19; xbc; x4e; xeb; xb7; x12; xe0; x45; x58; xfd; x0f; xaa; xf6; x53; xa1; x04; x9b; x3e; xcc; x69; x35; x90; x62; xc7; xda; x7f; x8d; x28; x74; xd1; x23; x86; x32; x97; x65; xc0; x9c; x39; xcb; x6e; x73; xd6; x24; x81; xdd; x78; x8a; x2f; xb0; x15; xe7; x42; x1e; xbb; x49; xec; xf1; x54; xa6; x03; x5f; xfa; x08; xad; x2b; x8e; x7c; xd9; x85; x20; xd2; x77; x6a; xcf; x3d; x98; xc4; x61; x93; x36; xa9; x0c; xfe; x5b; x07; xa2; x50; xf5; xe8; x4d; xbf; x1a; x46; xe3; x11; xb4; x64; xc1; x33; x96; xca; x6f; x9d; x38; x25; x80; x72; xd7; x8b; x2e; xdc; x79; xe6; x43; xb1; x14; x48; xed; x1f; xba; xa7; x02; xf0; x55; x09; xac; x5e; xfb; x7d; xd8; x2a; x8f; xd3; x76; x84; x21; x3c; x99; x6b; xce; x92; x37; xc5; x60; xff; x5a; xa8; x0d; x51; xf4; x06; xa3; xbe; x1b; xe9; x4c; x10; xb5; x47; xe2; x56; xf3; x01; xa4; xf8; x5d; xaf; x0a; x17; xb2; x40; xe5; xb9; x1c; xee; x4b; xd4; x71; x83; x26; x7a; xdf; x2d; x88; x95; x30; xc2; x67; x3b; x9e; x6c; xc9; x4f; xea; x18; xbd; xe1; x44; xb6; x13; x0e; xab; x59; xfc; xa0; x05; xf7; x52; xcd; x68; x9a; x3f; x63; xc6; x34; x91; x8c; x29; xdb; x7e; x22; x87; x75; xd0];
   [x00; xa6; x51; xf7; xa2; x04; xf3; x55; x59; xff; x08; xae; xfb; x5d; xaa; x0c; xb2; x14; xe3; x45; x10; xb6; x41; xe7; xeb; x4d; xba; x1c; x49; xef; x18; xbe; x79; xdf; x28; x8e; xdb; x7d; x8a; x2c; x20; x86; x71; xd7; x82; x24; xd3; x75; xcb; x6d; x9a; x3c; x69; xcf; x38; x9e; x92; x34; xc3; x65; x30; x96; x61; xc7; xf2; x54; xa3; x05; x50; xf6; x01; xa7; xab; x0d; xfa; x5c; x09; xaf; x58; xfe; x40; xe6; x11; xb7; xe2; x44; xb3; x15; x19; xbf; x48; xee; xbb; x1d; xea; x4c; x8b; x2d; xda; x7c; x29; x8f; x78; xde; xd2; x74; x83; x25; x70; xd6; x21; x87; x39; x9f; x68; xce; x9b; x3d; xca; x6c; x60; xc6; x31; x97; xc2; x64; x93; x35; xf9; x5f; xa8; x0e; x5b; xfd; x0a; xac; xa0; x06; xf1; x57; x02; xa4; x53; xf5; x4b; xed; x1a; xbc; xe9; x4f; xb8; x1e; x12; xb4; x43; xe5; xb0; x16; xe1; x47; x80; x26; xd1; x77; x22; x84; x73; xd5; xd9; x7f; x88; x2e; x7b; xdd; x2a; x8c; x32; x94; x63; xc5; x90; x36; xc1; x67; x6b; xcd; x3a; x9c; xc9; x6f; x98; x3e; x0b; xad; x5a; xfc; xa9; x0f; xf8; x5e; x52; xf4; x03; xa5; xf0; x56; xa1; x07; xb9; x1f; xe8; x4e; x1b; xbd; x4a; xec; xe0; x46; xb1; x17; x42; xe4; x13; xb5; x72; xd4; x23; x85; xd0; x76; x81; x27; x2b; x8d; x7a; xdc; x89; x2f; xd8; x7e; xc0; x66; x91; x37; x62; xc4; x33; x95; x99; x3f; xc8; x6e; x3b; x9d; x6a; xcc];
   [x00; xa7; x53; xf4; xa6; x01; xf5; x52; x51; xf6; x02; xa5; xf7; x50; xa4; x03; xa2; x05; xf1; x56; x04; xa3; x57; xf0; xf3; x54; xa0; x07; x55; xf2; x06; xa1; x59; xfe; x0a; xad; xff; x58; xac; x0b; x08; xaf; x5b; xfc; xae; x09; xfd; x5a; xfb; x5c; xa8; x0f; x5d; xfa; x0e; xa9; xaa; x0d; xf9; x5e; x0c; xab; x5f; xf8; xb2; x15; xe1; x46; x14; xb3; x47; xe0; xe3; x44; xb0; x17; x45; xe2; x16; xb1; x10; xb7; x43; xe4; xb6; x11; xe5; x42; x41; xe6; x12; xb5; xe7; x40; xb4; x13; xeb; x4c; xb8; x1f; x4d; xea; x1e; xb9; xba; x1d; xe9; x4e; x1c; xbb; x4f; xe8; x49; xee; x1a; xbd; xef; x48; xbc; x1b; x18; xbf; x4b; xec; xbe; x19; xed; x4a; x79; xde; x2a; x8d; xdf; x78; x8c; x2b; x28; x8f; x7b; xdc; x8e; x29; xdd; x7a; xdb; x7c; x88; x2f; x7d; xda; x2e; x89; x8a; x2d; xd9; x7e; x2c; x8b; x7f; xd8; x20; x87; x73; xd4; x86; x21; xd5; x72; x71; xd6; x22; x85; xd7; x70; x84; x23; x82; x25; xd1; x76; x24; x83; x77; xd0; xd3; x74; x80; x27; x75; xd2; x26; x81; xcb; x6c; x98; x3f; x6d; xca; x3e; x99; x9a; x3d; xc9; x6e; x3c; x9b; x6f; xc8; x69; xce; x3a; x9d; xcf; x68; x9c; x3b; x38; x9f; x6b; xcc; x9e; x39; xcd; x6a; x92; x35; xc1; x66; x34; x93; x67; xc0; xc3; x64; x90; x37; x65; xc2; x36; x91; x30; x97; x63; xc4; x96; x31; xc5; x62; x61; xc6; x32; x95; xc7; x60; x94; x33];
   [x00; xa8; x4d; xe5; x9a; x32; xd7; x7f; x29; x81; x64; xcc; xb3; x1b; xfe; x56; x52; xfa; x1f; xb7; xc8; x60; x85; x2d; x7b; xd3; x36; x9e; xe1; x49; xac; x04; xa4; x0c; xe9; x41; x3e; x96; x73; xdb; x8d; x25; xc0; x68; x17; xbf; x5a; xf2; xf6; x5e; xbb; x13; x6c; xc4; x21; x89; xdf; x77; x92; x3a; x45; xed; x08; xa0; x55; xfd; x18; xb0; xcf; x67; x82; x2a; x7c; xd4; x31; x99; xe6; x4e; xab; x03; x07; xaf; x4a; xe2; x9d; x35; xd0; x78; x2e; x86; x63; xcb; xb4; x1c; xf9; x51; xf1; x59; xbc; x14; x6b; xc3; x26; x8e; xd8; x70; x95; x3d; x42; xea; x0f; xa7; xa3; x0b; xee; x46; x39; x91; x74; xdc; x8a; x22; xc7; x6f; x10; xb8; x5d; xf5; xaa; x02; xe7; x4f; x30; x98; x7d; xd5; x83; x2b; xce; x66; x19; xb1; x54; xfc; xf8; x50; xb5; x1d; x62; xca; x2f; x87; xd1; x79; x9c; x34; x4b; xe3; x06; xae; x0e; xa6; x43; xeb; x94; x3c; xd9; x71; x27; x8f; x6a; xc2; xbd; x15; xf0; x58; x5c; xf4; x11; xb9; xc6; x6e; x8b; x23; x75; xdd; x38; x90; xef; x47; xa2; x0a; xff; x57; xb2; x1a; x65; xcd; x28; x80; xd6; x7e; x9b; x33; x4c; xe4; x01; xa9; xad; x05; xe0; x48; x37; x9f; x7a; xd2; x84; x2c; xc9; x61; x1e; xb6; x53; xfb; x5b; xf3; x16; xbe; xc1; x69; x8c; x24; x72; xda; x3f; x97; xe8; x40; xa5; x0d; x09; xa1; x44; xec; x93; x3b; xde; x76; x20; x88; x6d; xc5; xba; x12; xf7; x5f];
   [x00; xa9; x4f; xe6; x9e; x37; xd1; x78; x21; x88; x6e; xc7; xbf; x16; xf0; x59; x42; xeb; x0d; xa4; xdc; x75; x93; x3a; x63; xca; x2c; x85; xfd; x54; xb2; x1b; x84; x2d; xcb; x62; x1a; xb3; x55; xfc; xa5; x0c; xea; x43; x3b; x92; x74; xdd; xc6; x6f; x89; x20; x58; xf1; x17; xbe; xe7; x4e; xa8; x01; x79; xd0; x36; x9f; x15; xbc; x5a; xf3; x8b; x22; xc4; x6d; x34; x9d; x7b; xd2; xaa; x03; xe5; x4c; x57; xfe; x18; xb1; xc9; x60; x86; x2f; x76; xdf; x39; x90; xe8; x41; xa7; x0e; x91; x38; xde; x77; x0f; xa6; x40; xe9; xb0; x19; xff; x56; x2e; x87; x61; xc8; xd3; x7a; x9c; x35; x4d; xe4; x02; xab; xf2; x5b; xbd; x14; x6c; xc5; x23; x8a; x2a; x83; x65; xcc; xb4; x1d; xfb; x52; x0b; xa2; x44; xed; x95; x3c; xda; x73; x68; xc1; x27; x8e; xf6; x5f; xb9; x10; x49; xe0; x06; xaf; xd7; x7e; x98; x31; xae; x07; xe1; x48; x30; x99; x7f; xd6; x8f; x26; xc0; x69; x11; xb8; x5e; xf7; xec; x45; xa3; x0a; x72; xdb; x3d; x94; xcd; x64; x82; x2b; x53; xfa; x1c; xb5; x3f; x96; x70; xd9; xa1; x08; xee; x47; x1e; xb7; x51; xf8; x80; x29; xcf; x66; x7d; xd4; x32; x9b; xe3; x4a; xac; x05; x5c; xf5; x13; xba; xc2; x6b; x8d; x24; xbb; x12; xf4; x5d; x25; x8c; x6a; xc3; x9a; x33; xd5; x7c; x04; xad; x4b; xe2; xf9; x50; xb6; x1f; x67; xce; x28; x81; xd8; x71; x97; x3e; x46; xef; x09; xa0];
   [x00; xaa; x49; xe3; x92; x38; xdb; x71; x39; x93; x70; xda; xab; x01; xe2; x48; x72; xd8; x3b; x91; xe0; x4a; xa9; x03; x4b; xe1; x02; xa8; xd9; x73; x90; x3a; xe4; x4e; xad; x07; x76; xdc; x3f; x95; xdd; x77; x94; x3e; x4f; xe5; x06; xac; x96; x3c; xdf; x75; x04; xae; x4d; xe7; xaf; x05; xe6; x4c; x3d; x97; x74; xde; xd5; x7f; x9c; x36; x47; xed; x0e; xa4; xec; x46; xa5; x0f; x7e; xd4; x37; x9d; xa7; x0d; xee; x44; x35; x9f; x7c; xd6; x9e; x34; xd7; x7d; x0c; xa6; x45; xef; x31; x9b; x78; xd2; xa3; x09; xea; x40; x08; xa2; x41; xeb; x9a; x30; xd3; x79; x43; xe9; x0a; xa0; xd1; x7b; x98; x32; x7a; xd0; x33; x99; xe8; x42; xa1; x0b; xb7; x1d; xfe; x54; x25; x8f; x6c; xc6; x8e; x24; xc7; x6d; x1c; xb6; x55; xff; xc5; x6f; x8c; x26; x57; xfd; x1e; xb4; xfc; x56; xb5; x1f; x6e; xc4; x27; x8d; x53; xf9; x1a; xb0; xc1; x6b; x88; x22; x6a; xc0; x23; x89; xf8; x52; xb1; x1b; x21; x8b; x68; xc2; xb3; x19; xfa; x50; x18; xb2; x51; xfb; x8a; x20; xc3; x69; x62; xc8; x2b; x81; xf0; x5a; xb9; x13; x5b; xf1; x12; xb8; xc9; x63; x80; x2a; x10; xba; x59; xf3; x82; x28; xcb; x61; x29; x83; x60; xca; xbb; x11; xf2; x58; x86; x2c; xcf; x65; x14; xbe; x5d; xf7; xbf; x15; xf6; x5c; x2d; x87; x64; xce; xf4; x5e; xbd; x17; x66; xcc; x2f; x85; xcd; x67; x84; x2e; x5f; xf5; x16; xbc];
   [x00; xab; x4b; xe0; x96; x3d; xdd; x76; x31; x9a; x7a; xd1; xa7; x0c; xec; x47; x62; xc9; x29; x82; xf4; x5f; xbf; x14; x53; xf8; x18; xb3; xc5; x6e; x8e; x25; xc4; x6f; x8f; x24; x52; xf9; x19; xb2; xf5; x5e; xbe; x15; x63; xc8; x28; x83; xa6; x0d; xed; x46; x30; x9b; x7b; xd0; x97; x3c; xdc; x77; x01; xaa; x4a; xe1; x95; x3e; xde; x75; x03; xa8; x48; xe3; xa4; x0f; xef; x44; x32; x99; x79; xd2; xf7; x5c; xbc; x17; x61; xca; x2a; x81; xc6; x6d; x8d; x26; x50; xfb; x1b; xb0; x51; xfa; x1a; xb1; xc7; x6c; x8c; x27; x60; xcb; x2b; x80; xf6; x5d; xbd; x16; x33; x98; x78; xd3; xa5; x0e; xee; x45; x02; xa9; x49; xe2; x94; x3f; xdf; x74; x37; x9c; x7c; xd7; xa1; x0a; xea; x41; x06; xad; x4d; xe6; x90; x3b; xdb; x70; x55; xfe; x1e; xb5; xc3; x68; x88; x23; x64; xcf; x2f; x84; xf2; x59; xb9; x12; xf3; x58; xb8; x13; x65; xce; x2e; x85; xc2; x69; x89; x22; x54; xff; x1f; xb4; x91; x3a; xda; x71; x07; xac; x4c; xe7; xa0; x0b; xeb; x40; x36; x9d; x7d; xd6; xa2; x09; xe9; x42; x34; x9f; x7f; xd4; x93; x38; xd8; x73; x05; xae; x4e; xe5; xc0; x6b; x8b; x20; x56; xfd; x1d; xb6; xf1; x5a; xba; x11; x67; xcc; x2c; x87; x66; xcd; x2d; x86; xf0; x5b; xbb; x10; x57; xfc; x1c; xb7; xc1; x6a; x8a; x21; x04; xaf; x4f; xe4; x92; x39; xd9; x72; x35; x9e; x7e; xd5; xa3; x08; xe8; x43];
   [x00; xac; x45; xe9; x8a; x26; xcf; x63; x09; xa5; x4c; xe0; x83; x2f; xc6; x6a; x12; xbe; x57; xfb; x98; x34; xdd; x71; x1b; xb7; x5e; xf2; x91; x3d; xd4; x78; x24; x88; x61; xcd; xae; x02; xeb; x47; x2d; x81; x68; xc4; xa7; x0b; xe2; x4e; x36; x9a; x73; xdf; xbc; x10; xf9; x55; x3f; x93; x7a; xd6; xb5; x19; xf0; x5c; x48; xe4; x0d; xa1; xc2; x6e; x87; x2b; x41; xed; x04; xa8; xcb; x67; x8e; x22; x5a; xf6; x1f; xb3; xd0; x7c; x95; x39; x53; xff; x16; xba; xd9; x75; x9c; x30; x6c; xc0; x29; x85; xe6; x4a; xa3; x0f; x65; xc9; x20; x8c; xef; x43; xaa; x06; x7e; xd2; x3b; x97; xf4; x58; xb1; x1d; x77; xdb; x32; x9e; xfd; x51; xb8; x14; x90; x3c; xd5; x79; x1a; xb6; x5f; xf3; x99; x35; xdc; x70; x13; xbf; x56; xfa; x82; x2e; xc7; x6b; x08; xa4; x4d; xe1; x8b; x27; xce; x62; x01; xad; x44; xe8; xb4; x18; xf1; x5d; x3e; x92; x7b; xd7; xbd; x11; xf8; x54; x37; x9b; x72; xde; xa6; x0a; xe3; x4f; x2c; x80; x69; xc5; xaf; x03; xea; x46; x25; x89; x60; xcc; xd8; x74; x9d; x31; x52; xfe; x17; xbb; xd1; x7d; x94; x38; x5b; xf7; x1e; xb2; xca; x66; x8f; x23; x40; xec; x05; xa9; xc3; x6f; x86; x2a; x49; xe5; x0c; xa0; xfc; x50; xb9; x15; x76; xda; x33; x9f; xf5; x59; xb0; x1c; x7f; xd3; x3a; x96; xee; x42; xab; x07; x64; xc8; x21; x8d; xe7; x4b; xa2; x0e; x6d; xc1; x28; x84];
   [x00; xad; x47; xea; x8e; x23; xc9; x64; x01; xac; x46; xeb; x8f; x22; xc8; x65; x02; xaf; x45; xe8; x8c; x21; xcb; x66; x03; xae; x44; xe9; x8d; x20; xca; x67; x04; xa9; x43; xee; x8a; x27; xcd; x60; x05; xa8; x42; xef; x8b; x26; xcc; x61; x06; xab; x41; xec; x88; x25; xcf; x62; x07; xaa; x40; xed; x89; x24; xce; x63; x08; xa5; x4f; xe2; x86; x2b; xc1; x6c; x09; xa4; x4e; xe3; x87; x2a; xc0; x6d; x0a; xa7; x4d; xe0; x84; x29; xc3; x6e; x0b; xa6; x4c; xe1; x85; x28; xc2; x6f; x0c; xa1; x4b; xe6; x82; x2f; xc5; x68; x0d; xa0; x4a; xe7; x83; x2e; xc4; x69; x0e; xa3; x49; xe4; x80; x2d; xc7; x6a; x0f; xa2; x48; xe5; x81; x2c; xc6; x6b; x10; xbd; x57; xfa; x9e; x33; xd9; x74; x11; xbc; x56; xfb; x9f; x32; xd8; x75; x12; xbf; x55; xf8; x9c; x31; xdb; x76; x13; xbe; x54; xf9; x9d; x30; xda; x77; x14; xb9; x53; xfe; x9a; x37; xdd; x70; x15; xb8; x52; xff; x9b; x36; xdc; x71; x16; xbb; x51; xfc; x98; x35; xdf; x72; x17; xba; x50; xfd; x99; x34; xde; x73; x18; xb5; x5f; xf2; x96; x3b; xd1; x7c; x19; xb4; x5e; xf3; x97; x3a; xd0; x7d; x1a; xb7; x5d; xf0; x94; x39; xd3; x7e; x1b; xb6; x5c; xf1; x95; x38; xd2; x7f; x1c; xb1; x5b; xf6; x92; x3f; xd5; x78; x1d; xb0; x5a; xf7; x93; x3e; xd4; x79; x1e; xb3; x59; xf4; x90; x3d; xd7; x7a; x1f; xb2; x58; xf5; x91; x3c; xd6; x7b];
   [x00; xae; x41; xef; x82; x2c; xc3; x6d; x19; xb7; x58; xf6; x9b; x35; xda; x74; x32; x9c; x73; xdd; xb0; x1e; xf1; x5f; x2b; x85; x6a; xc4; xa9; x07; xe8; x46; x64; xca; x25; x8b; xe6; x48; xa7; x09; x7d; xd3; x3c; x92; xff; x51; xbe; x10; x56; xf8; x17; xb9; xd4; x7a; x95; x3b; x4f; xe1; x0e; xa0; xcd; x63; x8c; x22; xc8; x66; x89; x27; x4a; xe4; x0b; xa5; xd1; x7f; x90; x3e; x53; xfd; x12; xbc; xfa; x54; xbb; x15; x78; xd6; x39; x97; xe3; x4d; xa2; x0c; x61; xcf; x20; x8e; xac; x02; xed; x43; x2e; x80; x6f; xc1; xb5; x1b; xf4; x5a; x37; x99; x76; xd8; x9e; x30; xdf; x71; x1c; xb2; x5d; xf3; x87; x29; xc6; x68; x05; xab; x44; xea; x8d; x23; xcc; x62; x0f; xa1; x4e; xe0; x94; x3a; xd5; x7b; x16; xb8; x57; xf9; xbf; x11; xfe; x50; x3d; x93; x7c; xd2; xa6; x08; xe7; x49; x24; x8a; x65; xcb; xe9; x47; xa8; x06; x6b; xc5; x2a; x84; xf0; x5e; xb1; x1f; x72; xdc; x33; x9d; xdb; x75; x9a; x34; x59; xf7; x18; xb6; xc2; x6c; x83; x2d; x40; xee; x01; xaf; x45; xeb; x04; xaa; xc7; x69; x86; x28; x5c; xf2; x1d; xb3; xde; x70; x9f; x31; x77; xd9; x36; x98; xf5; x5b; xb4; x1a; x6e; xc0; x2f; x81; xec; x42; xad; x03; x21; x8f; x60; xce; xa3; x0d; xe2; x4c; x38; x96; x79; xd7; xba; x14; xfb; x55; x13; xbd; x52; xfc; x91; x3f; xd0; x7e; x0a; xa4; x4b; xe5; x88; x26; xc9; x67];
   [x00; xaf; x43; xec; x86; x29; xc5; x6a; x11; xbe; x52; xfd; x97; x38; xd4; x7b; x22; x8d; x61; xce; xa4; x0b; xe7; x48; x33; x9c; x70; xdf; xb5; x1a; xf6; x59; x44; xeb; x07; xa8; xc2; x6d; x81; x2e; x55; xfa; x16; xb9; xd3; x7c; x90; x3f; x66; xc9; x25; x8a; xe0; x4f; xa3; x0c; x77; xd8; x34; x9b; xf1; x5e; xb2; x1d; x88; x27; xcb; x64; x0e; xa1; x4d; xe2; x99; x36; xda; x75; x1f; xb0; x5c; xf3; xaa; x05; xe9; x46; x2c; x83; x6f; xc0; xbb; x14; xf8; x57; x3d; x92; x7e; xd1; xcc; x63; x8f; x20; x4a; xe5; x09; xa6; xdd; x72; x9e; x31; x5b; xf4; x18; xb7; xee; x41; xad; x02; x68; xc7; x2b; x84; xff; x50; xbc; x13; x79; xd6; x3a; x95; x0d; xa2; x4e; xe1; x8b; x24; xc8; x67; x1c; xb3; x5f; xf0; x9a; x35; xd9; x76; x2f; x80; x6c; xc3; xa9; x06; xea; x45; x3e; x91; x7d; xd2; xb8; x17; xfb; x54; x49; xe6; x0a; xa5; xcf; x60; x8c; x23; x58; xf7; x1b; xb4; xde; x71; x9d; x32; x6b; xc4; x28; x87; xed; x42; xae; x01; x7a; xd5; x39; x96; xfc; x53; xbf; x10; x85; x2a; xc6; x69; x03; xac; x40; xef; x94; x3b; xd7; x78; x12; xbd; x51; xfe; xa7; x08; xe4; x4b; x21; x8e; x62; xcd; xb6; x19; xf5; x5a; x30; x9f; x73; xdc; xc1; x6e; x82; x2d; x47; xe8; x04; xab; xd0; x7f; x93; x3c; x56; xf9; x15; xba; xe3; x4c; xa0; x0f; x65; xca; x26; x89; xf2; x5d; xb1; x1e; x74; xdb; x37; x98];
   [x00; xb0; x7d; xcd; xfa; x4a; x87; x37; xe9; x59; x94; x24; x13; xa3; x6e; xde; xcf; x7f; xb2; x02; x35; x85; x48; xf8; x26; x96; x5b; xeb; xdc; x6c; xa1; x11; x83; x33; xfe; x4e; x79; xc9; x04; xb4; x6a; xda; x17; xa7; x90; x20; xed; x5d; x4c; xfc; x31; x81; xb6; x06; xcb; x7b; xa5; x15; xd8; x68; x5f; xef; x22; x92; x1b; xab; x66; xd6; xe1; x51; x9c; x2c; xf2; x42; x8f; x3f; x08; xb8; x75; xc5; xd4; x64; xa9; x19; x2e; x9e; x53; xe3; x3d; x8d; x40; xf0; xc7; x77; xba; x0a; x98; x28; xe5; x55; x62; xd2; x1f; xaf; x71; xc1; x0c; xbc; x8b; x3b; xf6; x46; x57; xe7; x2a; x9a; xad; x1d; xd0; x60; xbe; x0e; xc3; x73; x44; xf4; x39; x89; x36; x86; x4b; xfb; xcc; x7c; xb1; x01; xdf; x6f; xa2; x12; x25; x95; x58; xe8; xf9; x49; x84; x34; x03; xb3; x7e; xce; x10; xa0; x6d; xdd; xea; x5a; x97; x27; xb5; x05; xc8; x78; x4f; xff; x32; x82; x5c; xec; x21; x91; xa6; x16; xdb; x6b; x7a; xca; x07; xb7; x80; x30; xfd; x4d; x93; x23; xee; x5e; x69; xd9; x14; xa4; x2d; x9d; x50; xe0; xd7; x67; xaa; x1a; xc4; x74; xb9; x09; x3e; x8e; x43; xf3; xe2; x52; x9f; x2f; x18; xa8; x65; xd5; x0b; xbb; x76; xc6; xf1; x41; x8c; x3c; xae; x1e; xd3; x63; x54; xe4; x29; x99; x47; xf7; x3a; x8a; xbd; x0d; xc0; x70; x61; xd1; x1c; xac; x9b; x2b; xe6; x56; x88; x38; xf5; x45; x72; xc2; x0f; xbf];
   [x00; xb1; x7f; xce; xfe; x4f; x81; x30; xe1; x50; x9e; x2f; x1f; xae; x60; xd1; xdf; x6e; xa0; x11; x21; x90; x5e; xef; x3e; x8f; x41; xf0; xc0; x71; xbf; x0e; xa3; x12; xdc; x6d; x5d; xec; x22; x93; x42; xf3; x3d; x8c; xbc; x0d; xc3; x72; x7c; xcd; x03; xb2; x82; x33; xfd; x4c; x9d; x2c; xe2; x53; x63; xd2; x1c; xad; x5b; xea; x24; x95; xa5; x14; xda; x6b; xba; x0b; xc5; x74; x44; xf5; x3b; x8a; x84; x35; xfb; x4a; x7a; xcb; x05; xb4; x65; xd4; x1a; xab; x9b; x2a; xe4; x55; xf8; x49; x87; x36; x06; xb7; x79; xc8; x19; xa8; x66; xd7; xe7; x56; x98; x29; x27; x96; x58; xe9; xd9; x68; xa6; x17; xc6; x77; xb9; x08; x38; x89; x47; xf6; xb6; x07; xc9; x78; x48; xf9; x37; x86; x57; xe6; x28; x99; xa9; x18; xd6; x67; x69; xd8; x16; xa7; x97; x26; xe8; x59; x88; x39; xf7; x46; x76; xc7; x09; xb8; x15; xa4; x6a; xdb; xeb; x5a; x94; x25; xf4; x45; x8b; x3a; x0a; xbb; x75; xc4; xca; x7b; xb5; x04; x34; x85; x4b; xfa; x2b; x9a; x54; xe5; xd5; x64; xaa; x1b; xed; x5c; x92; x23; x13; xa2; x6c; xdd; x0c; xbd; x73; xc2; xf2; x43; x8d; x3c; x32; x83; x4d; xfc; xcc; x7d; xb3; x02; xd3; x62; xac; x1d; x2d; x9c; x52; xe3; x4e; xff; x31; x80; xb0; x01; xcf; x7e; xaf; x1e; xd0; x61; x51; xe0; x2e; x9f; x91; x20; xee; x5f; x6f; xde; x10; xa1; x70; xc1; x0f; xbe; x8e; x3f; xf1; x40];
   [x00; xb2; x79; xcb; xf2; x40; x8b; x39; xf9; x4b; x80; x32; x0b; xb9; x72; xc0; xef; x5d; x96; x24; x1d; xaf; x64; xd6; x16; xa4; x6f; xdd; xe4; x56; x9d; x2f; xc3; x71; xba; x08; x31; x83; x48; xfa; x3a; x88; x43; xf1; xc8; x7a; xb1; x03; x2c; x9e; x55; xe7; xde; x6c; xa7; x15; xd5; x67; xac; x1e; x27; x95; x5e; xec; x9b; x29; xe2; x50; x69; xdb; x10; xa2; x62; xd0; x1b; xa9; x90; x22; xe9; x5b; x74; xc6; x0d; xbf; x86; x34; xff; x4d; x8d; x3f; xf4; x46; x7f; xcd; x06; xb4; x58; xea; x21; x93; xaa; x18; xd3; x61; xa1; x13; xd8; x6a; x53; xe1; x2a; x98; xb7; x05; xce; x7c; x45; xf7; x3c; x8e; x4e; xfc; x37; x85; xbc; x0e; xc5; x77; x2b; x99; x52; xe0; xd9; x6b; xa0; x12; xd2; x60; xab; x19; x20; x92; x59; xeb; xc4; x76; xbd; x0f; x36; x84; x4f; xfd; x3d; x8f; x44; xf6; xcf; x7d; xb6; x04; xe8; x5a; x91; x23; x1a; xa8; x63; xd1; x11; xa3; x68; xda; xe3; x51; x9a; x28; x07; xb5; x7e; xcc; xf5; x47; x8c; x3e; xfe; x4c; x87; x35; x0c; xbe; x75; xc7; xb0; x02; xc9; x7b; x42; xf0; x3b; x89; x49; xfb; x30; x82; xbb; x09; xc2; x70; x5f; xed; x26; x94; xad; x1f; xd4; x66; xa6; x14; xdf; x6d; x54; xe6; x2d; x9f; x73; xc1; x0a; xb8; x81; x33; xf8; x4a; x8a; x38; xf3; x41; x78; xca; x01; xb3; x9c; x2e; xe5; x57; x6e; xdc; x17; xa5; x65; xd7; x1c; xae; x97; x25; xee; x5c];
   [x00; xb3; x7b; xc8; xf6; x45; x8d; x3e; xf1; x42; x8a; x39; x07; xb4; x7c; xcf; xff; x4c; x84; x37; x09; xba; x72; xc1; x0e; xbd; x75; xc6; xf8; x4b; x83; x30; xe3; x50; x98; x2b; x15; xa6; x6e; xdd; x12; xa1; x69; xda; xe4; x57; x9f; x2c; x1c; xaf; x67; xd4; xea; x59; x91; x22; xed; x5e; x96; x25; x1b; xa8; x60; xd3; xdb; x68; xa0; x13; x2d; x9e; x56; xe5; x2a; x99; x51; xe2; xdc; x6f; xa7; x14; x24; x97; x5f; xec; xd2; x61; xa9; x1a; xd5; x66; xae; x1d; x23; x90; x58; xeb; x38; x8b; x43; xf0; xce; x7d; xb5; x06; xc9; x7a; xb2; x01; x3f; x8c; x44; xf7; xc7; x74; xbc; x0f; x31; x82; x4a; xf9; x36; x85; x4d; xfe; xc0; x73; xbb; x08; xab; x18; xd0; x63; x5d; xee; x26; x95; x5a; xe9; x21; x92; xac; x1f; xd7; x64; x54; xe7; x2f; x9c; xa2; x11; xd9; x6a; xa5; x16; xde; x6d; x53; xe0; x28; x9b; x48; xfb; x33; x80; xbe; x0d; xc5; x76; xb9; x0a; xc2; x71; x4f; xfc; x34; x87; xb7; x04; xcc; x7f; x41; xf2; x3a; x89; x46; xf5; x3d; x8e; xb0; x03; xcb; x78; x70; xc3; x0b; xb8; x86; x35; xfd; x4e; x81; x32; xfa; x49; x77; xc4; x0c; xbf; x8f; x3c; xf4; x47; x79; xca; x02; xb1; x7e; xcd; x05; xb6; x88; x3b; xf3; x40; x93; x20; xe8; x5b; x65; xd6; x1e; xad; x62; xd1; x19; xaa; x94; x27; xef; x5c; x6c; xdf; x17; xa4; x9a; x29; xe1; x52; x9d; x2e; xe6; x55; x6b; xd8; x10; xa3];
   [x00; xb4; x75; xc1; xea; x5e; x9f; x2b; xc9; x7d; xbc; x08; x23; x97; x56; xe2; x8f; x3b; xfa; x4e; x65; xd1; x10; xa4; x46; xf2; x33; x87; xac; x18; xd9; x6d; x03; xb7; x76; xc2; xe9; x5d; x9c; x28; xca; x7e; xbf; x0b; x20; x94; x55; xe1; x8c; x38; xf9; x4d; x66; xd2; x13; xa7; x45; xf1; x30; x84; xaf; x1b; xda; x6e; x06; xb2; x73; xc7; xec; x58; x99; x2d; xcf; x7b; xba; x0e; x25; x91; x50; xe4; x89; x3d; xfc; x48; x63; xd7; x16; xa2; x40; xf4; x35; x81; xaa; x1e; xdf; x6b; x05; xb1; x70; xc4; xef; x5b; x9a; x2e; xcc; x78; xb9; x0d; x26; x92; x53; xe7; x8a; x3e; xff; x4b; x60; xd4; x15; xa1; x43; xf7; x36; x82; xa9; x1d; xdc; x68; x0c; xb8; x79; xcd; xe6; x52; x93; x27; xc5; x71; xb0; x04; x2f; x9b; x5a; xee; x83; x37; xf6; x42; x69; xdd; x1c; xa8; x4a; xfe; x3f; x8b; xa0; x14; xd5; x61; x0f; xbb; x7a; xce; xe5; x51; x90; x24; xc6; x72; xb3; x07; x2c; x98; x59; xed; x80; x34; xf5; x41; x6a; xde; x1f; xab; x49; xfd; x3c; x88; xa3; x17; xd6; x62; x0a; xbe; x7f; xcb; xe0; x54; x95; x21; xc3; x77; xb6; x02; x29; x9d; x5c; xe8; x85; x31; xf0; x44; x6f; xdb; x1a; xae; x4c; xf8; x39; x8d; xa6; x12; xd3; x67; x09; xbd; x7c; xc8; xe3; x57; x96; x22; xc0; x74; xb5; x01; x2a; x9e; x5f; xeb; x86; x32; xf3; x47; x6c; xd8; x19; xad; x4f; xfb; x3a; x8e; xa5; x11; xd0; x64];
   [x00; xb5; x77; xc2; xee; x5b; x99; x2c; xc1; x74; xb6; x03; x2f; x9a; x58; xed; x9f; x2a; xe8; x5d; x71; xc4; x06; xb3; x5e; xeb; x29; x9c; xb0; x05; xc7; x72; x23; x96; x54; xe1; xcd; x78; xba; x0f; xe2; x57; x95; x20; x0c; xb9; x7b; xce; xbc; x09; xcb; x7e; x52; xe7; x25; x90; x7d; xc8; x0a; xbf; x93; x26; xe4; x51; x46; xf3; x31; x84; xa8; x1d; xdf; x6a; x87; x32; xf0; x45; x69; xdc; x1e; xab; xd9; x6c; xae; x1b; x37; x82; x40; xf5; x18; xad; x6f; xda; xf6; x43; x81; x34; x65; xd0; x12; xa7; x8b; x3e; xfc; x49; xa4; x11; xd3; x66; x4a; xff; x3d; x88; xfa; x4f; x8d; x38; x14; xa1; x63; xd6; x3b; x8e; x4c; xf9; xd5; x60; xa2; x17; x8c; x39; xfb; x4e; x62; xd7; x15; xa0; x4d; xf8; x3a; x8f; xa3; x16; xd4; x61; x13; xa6; x64; xd1; xfd; x48; x8a; x3f; xd2; x67; xa5; x10; x3c; x89; x4b; xfe; xaf; x1a; xd8; x6d; x41; xf4; x36; x83; x6e; xdb; x19; xac; x80; x35; xf7; x42; x30; x85; x47; xf2; xde; x6b; xa9; x1c; xf1; x44; x86; x33; x1f; xaa; x68; xdd; xca; x7f; xbd; x08; x24; x91; x53; xe6; x0b; xbe; x7c; xc9; xe5; x50; x92; x27; x55; xe0; x22; x97; xbb; x0e; xcc; x79; x94; x21; xe3; x56; x7a; xcf; x0d; xb8; xe9; x5c; x9e; x2b; x07; xb2; x70; xc5; x28; x9d; x5f; xea; xc6; x73; xb1; x04; x76; xc3; x01; xb4; x98; x2d; xef; x5a; xb7; x02; xc0; x75; x59; xec; x2e; x9b];
   [x00; xb6; x71; xc7; xe2; x54; x93; x25; xd9; x6f; xa8; x1e; x3b; x8d; x4a; xfc; xaf; x19; xde; x68; x4d; xfb; x3c; x8a; x76; xc0; x07; xb1; x94; x22; xe5; x53; x43; xf5; x32; x84; xa1; x17; xd0; x66; x9a; x2c; xeb; x5d; x78; xce; x09; xbf; xec; x5a; x9d; x2b; x0e; xb8; x7f; xc9; x35; x83; x44; xf2; xd7; x61; xa6; x10; x86; x30; xf7; x41; x64; xd2; x15; xa3; x5f; xe9; x2e; x98; xbd; x0b; xcc; x7a; x29; x9f; x58; xee; xcb; x7d; xba; x0c; xf0; x46; x81; x37; x12; xa4; x63; xd5; xc5; x73; xb4; x02; x27; x91; x56; xe0; x1c; xaa; x6d; xdb; xfe; x48; x8f; x39; x6a; xdc; x1b; xad; x88; x3e; xf9; x4f; xb3; x05; xc2; x74; x51; xe7; x20; x96; x11; xa7; x60; xd6; xf3; x45; x82; x34; xc8; x7e; xb9; x0f; x2a; x9c; x5b; xed; xbe; x08; xcf; x79; x5c; xea; x2d; x9b; x67; xd1; x16; xa0; x85; x33; xf4; x42; x52; xe4; x23; x95; xb0; x06; xc1; x77; x8b; x3d; xfa; x4c; x69; xdf; x18; xae; xfd; x4b; x8c; x3a; x1f; xa9; x6e; xd8; x24; x92; x55; xe3; xc6; x70; xb7; x01; x97; x21; xe6; x50; x75; xc3; x04; xb2; x4e; xf8; x3f; x89; xac; x1a; xdd; x6b; x38; x8e; x49; xff; xda; x6c; xab; x1d; xe1; x57; x90; x26; x03; xb5; x72; xc4; xd4; x62; xa5; x13; x36; x80; x47; xf1; x0d; xbb; x7c; xca; xef; x59; x9e; x28; x7b; xcd; x0a; xbc; x99; x2f; xe8; x5e; xa2; x14; xd3; x65; x40; xf6; x31; x87];
   [x00; xb7; x73; xc4; xe6; x51; x95; x22; xd1; x66; xa2; x15; x37; x80; x44; xf3; xbf; x08; xcc; x7b; x59; xee; x2a; x9d; x6e; xd9; x1d; xaa; x88; x3f; xfb; x4c; x63; xd4; x10; xa7; x85; x32; xf6; x41; xb2; x05; xc1; x76; x54; xe3; x27; x90; xdc; x6b; xaf; x18; x3a; x8d; x49; xfe; x0d; xba; x7e; xc9; xeb; x5c; x98; x2f; xc6; x71; xb5; x02; x20; x97; x53; xe4; x17; xa0; x64; xd3; xf1; x46; x82; x35; x79; xce; x0a; xbd; x9f; x28; xec; x5b; xa8; x1f; xdb; x6c; x4e; xf9; x3d; x8a; xa5; x12; xd6; x61; x43; xf4; x30; x87; x74; xc3; x07; xb0; x92; x25; xe1; x56; x1a; xad; x69; xde; xfc; x4b; x8f; x38; xcb; x7c; xb8; x0f; x2d; x9a; x5e; xe9; x91; x26; xe2; x55; x77; xc0; x04; xb3; x40; xf7; x33; x84; xa6; x11; xd5; x62; x2e; x99; x5d; xea; xc8; x7f; xbb; x0c; xff; x48; x8c; x3b; x19; xae; x6a; xdd; xf2; x45; x81; x36; x14; xa3; x67; xd0; x23; x94; x50; xe7; xc5; x72; xb6; x01; x4d; xfa; x3e; x89; xab; x1c; xd8; x6f; x9c; x2b; xef; x58; x7a; xcd; x09; xbe; x57; xe0; x24; x93; xb1; x06; xc2; x75; x86; x31; xf5; x42; x60; xd7; x13; xa4; xe8; x5f; x9b; x2c; x0e; xb9; x7d; xca; x39; x8e; x4a; xfd; xdf; x68; xac; x1b; x34; x83; x47; xf0; xd2; x65; xa1; x16; xe5; x52; x96; x21; x03; xb4; x70; xc7; x8b; x3c; xf8; x4f; x6d; xda; x1e; xa9; x5a; xed; x29; x9e; xbc; x0b; xcf; x78];
   [x00; xb8; x6d; xd5; xda; x62; xb7; x0f; xa9; x11; xc4; x7c; x73; xcb; x1e; xa6; x4f; xf7; x22; x9a; x95; x2d; xf8; x40; xe6; x5e; x8b; x33; x3c; x84; x51; xe9; x9e; x26; xf3; x4b; x44; xfc; x29; x91; x37; x8f; x5a; xe2; xed; x55; x80; x38; xd1; x69; xbc; x04; x0b; xb3; x66; xde; x78; xc0; x15; xad; xa2; x1a; xcf; x77; x21; x99; x4c; xf4; xfb; x43; x96; x2e; x88; x30; xe5; x5d; x52; xea; x3f; x87; x6e; xd6; x03; xbb; xb4; x0c; xd9; x61; xc7; x7f; xaa; x12; x1d; xa5; x70; xc8; xbf; x07; xd2; x6a; x65; xdd; x08; xb0; x16; xae; x7b; xc3; xcc; x74; xa1; x19; xf0; x48; x9d; x25; x2a; x92; x47; xff; x59; xe1; x34; x8c; x83; x3b; xee; x56; x42; xfa; x2f; x97; x98; x20; xf5; x4d; xeb; x53; x86; x3e; x31; x89; x5c; xe4; x0d; xb5; x60; xd8; xd7; x6f; xba; x02; xa4; x1c; xc9; x71; x7e; xc6; x13; xab; xdc; x64; xb1; x09; x06; xbe; x6b; xd3; x75; xcd; x18; xa0; xaf; x17; xc2; x7a; x93; x2b; xfe; x46; x49; xf1; x24; x9c; x3a; x82; x57; xef; xe0; x58; x8d; x35; x63; xdb; x0e; xb6; xb9; x01; xd4; x6c; xca; x72; xa7; x1f; x10; xa8; x7d; xc5; x2c; x94; x41; xf9; xf6; x4e; x9b; x23; x85; x3d; xe8; x50; x5f; xe7; x32; x8a; xfd; x45; x90; x28; x27; x9f; x4a; xf2; x54; xec; x39; x81; x8e; x36; xe3; x5b; xb2; x0a; xdf; x67; x68; xd0; x05; xbd; x1b; xa3; x76; xce; xc1; x79; xac; x14];
   [x00; xb9; x6f; xd6; xde; x67; xb1; x08; xa1; x18; xce; x77; x7f; xc6; x10; xa9; x5f; xe6; x30; x89; x81; x38; xee; x57; xfe; x47; x91; x28; x20; x99; x4f; xf6; xbe; x07; xd1; x68; x60; xd9; x0f; xb6; x1f; xa6; x70; xc9; xc1; x78; xae; x17; xe1; x58; x8e; x37; x3f; x86; x50; xe9; x40; xf9; x2f; x96; x9e; x27; xf1; x48; x61; xd8; x0e; xb7; xbf; x06; xd0; x69; xc0; x79; xaf; x16; x1e; xa7; x71; xc8; x3e; x87; x51; xe8; xe0; x59; x8f; x36; x9f; x26; xf0; x49; x41; xf8; x2e; x97; xdf; x66; xb0; x09; x01; xb8; x6e; xd7; x7e; xc7; x11; xa8; xa0; x19; xcf; x76; x80; x39; xef; x56; x5e; xe7; x31; x88; x21; x98; x4e; xf7; xff; x46; x90; x29; xc2; x7b; xad; x14; x1c; xa5; x73; xca; x63; xda; x0c; xb5; xbd; x04; xd2; x6b; x9d; x24; xf2; x4b; x43; xfa; x2c; x95; x3c; x85; x53; xea; xe2; x5b; x8d; x34; x7c; xc5; x13; xaa; xa2; x1b; xcd; x74; xdd; x64; xb2; x0b; x03; xba; x6c; xd5; x23; x9a; x4c; xf5; xfd; x44; x92; x2b; x82; x3b; xed; x54; x5c; xe5; x33; x8a; xa3; x1a; xcc; x75; x7d; xc4; x12; xab; x02; xbb; x6d; xd4; xdc; x65; xb3; x0a; xfc; x45; x93; x2a; x22; x9b; x4d; xf4; x5d; xe4; x32; x8b; x83; x3a; xec; x55; x1d; xa4; x72; xcb; xc3; x7a; xac; x15; xbc; x05; xd3; x6a; x62; xdb; x0d; xb4; x42; xfb; x2d; x94; x9c; x25; xf3; x4a; xe3; x5a; x8c; x35; x3d; x84; x52; xeb];
   [x00; xba; x69; xd3; xd2; x68; xbb; x01; xb9; x03; xd0; x6a; x6b; xd1; x02; xb8; x6f; xd5; x06; xbc; xbd; x07; xd4; x6e; xd6; x6c; xbf; x05; x04; xbe; x6d; xd7; xde; x64; xb7; x0d; x0c; xb6; x65; xdf; x67; xdd; x0e; xb4; xb5; x0f; xdc; x66; xb1; x0b; xd8; x62; x63; xd9; x0a; xb0; x08; xb2; x61; xdb; xda; x60; xb3; x09; xa1; x1b; xc8; x72; x73; xc9; x1a; xa0; x18; xa2; x71; xcb; xca; x70; xa3; x19; xce; x74; xa7; x1d; x1c; xa6; x75; xcf; x77; xcd; x1e; xa4; xa5; x1f; xcc; x76; x7f; xc5; x16; xac; xad; x17; xc4; x7e; xc6; x7c; xaf; x15; x14; xae; x7d; xc7; x10; xaa; x79; xc3; xc2; x78; xab; x11; xa9; x13; xc0; x7a; x7b; xc1; x12; xa8; x5f; xe5; x36; x8c; x8d; x37; xe4; x5e; xe6; x5c; x8f; x35; x34; x8e; x5d; xe7; x30; x8a; x59; xe3; xe2; x58; x8b; x31; x89; x33; xe0; x5a; x5b; xe1; x32; x88; x81; x3b; xe8; x52; x53; xe9; x3a; x80; x38; x82; x51; xeb; xea; x50; x83; x39; xee; x54; x87; x3d; x3c; x86; x55; xef; x57; xed; x3e; x84; x85; x3f; xec; x56; xfe; x44; x97; x2d; x2c; x96; x45; xff; x47; xfd; x2e; x94; x95; x2f; xfc; x46; x91; x2b; xf8; x42; x43; xf9; x2a; x90; x28; x92; x41; xfb; xfa; x40; x93; x29; x20; x9a; x49; xf3; xf2; x48; x9b; x21; x99; x23; xf0; x4a; x4b; xf1; x22; x98; x4f; xf5; x26; x9c; x9d; x27; xf4; x4e; xf6; x4c; x9f; x25; x24; x9e; x4d; xf7];
   [x00; xbb; x6b; xd0; xd6; x6d; xbd; x06; xb1; x0a; xda; x61; x67; xdc; x0c; xb7; x7f; xc4; x14; xaf; xa9; x12; xc2; x79; xce; x75; xa5; x1e; x18; xa3; x73; xc8; xfe; x45; x95; x2e; x28; x93; x43; xf8; x4f; xf4; x24; x9f; x99; x22; xf2; x49; x81; x3a; xea; x51; x57; xec; x3c; x87; x30; x8b; x5b; xe0; xe6; x5d; x8d; x36; xe1; x5a; x8a; x31; x37; x8c; x5c; xe7; x50; xeb; x3b; x80; x86; x3d; xed; x56; x9e; x25; xf5; x4e; x48; xf3; x23; x98; x2f; x94; x44; xff; xf9; x42; x92; x29; x1f; xa4; x74; xcf; xc9; x72; xa2; x19; xae; x15; xc5; x7e; x78; xc3; x13; xa8; x60; xdb; x0b; xb0; xb6; x0d; xdd; x66; xd1; x6a; xba; x01; x07; xbc; x6c; xd7; xdf; x64; xb4; x0f; x09; xb2; x62; xd9; x6e; xd5; x05; xbe; xb8; x03; xd3; x68; xa0; x1b; xcb; x70; x76; xcd; x1d; xa6; x11; xaa; x7a; xc1; xc7; x7c; xac; x17; x21; x9a; x4a; xf1; xf7; x4c; x9c; x27; x90; x2b; xfb; x40; x46; xfd; x2d; x96; x5e; xe5; x35; x8e; x88; x33; xe3; x58; xef; x54; x84; x3f; x39; x82; x52; xe9; x3e; x85; x55; xee; xe8; x53; x83; x38; x8f; x34; xe4; x5f; x59; xe2; x32; x89; x41; xfa; x2a; x91; x97; x2c; xfc; x47; xf0; x4b; x9b; x20; x26; x9d; x4d; xf6; xc0; x7b; xab; x10; x16; xad; x7d; xc6; x71; xca; x1a; xa1; xa7; x1c; xcc; x77; xbf; x04; xd4; x6f; x69; xd2; x02; xb9; x0e; xb5; x65; xde; xd8; x63; xb3; x08];
   [x00; xbc; x65; xd9; xca; x76; xaf; x13; x89; x35; xec; x50; x43; xff; x26; x9a; x0f; xb3; x6a; xd6; xc5; x79; xa0; x1c; x86; x3a; xe3; x5f; x4c; xf0; x29; x95; x1e; xa2; x7b; xc7; xd4; x68; xb1; x0d; x97; x2b; xf2; x4e; x5d; xe1; x38; x84; x11; xad; x74; xc8; xdb; x67; xbe; x02; x98; x24; xfd; x41; x52; xee; x37; x8b; x3c; x80; x59; xe5; xf6; x4a; x93; x2f; xb5; x09; xd0; x6c; x7f; xc3; x1a; xa6; x33; x8f; x56; xea; xf9; x45; x9c; x20; xba; x06; xdf; x63; x70; xcc; x15; xa9; x22; x9e; x47; xfb; xe8; x54; x8d; x31; xab; x17; xce; x72; x61; xdd; x04; xb8; x2d; x91; x48; xf4; xe7; x5b; x82; x3e; xa4; x18; xc1; x7d; x6e; xd2; x0b; xb7; x78; xc4; x1d; xa1; xb2; x0e; xd7; x6b; xf1; x4d; x94; x28; x3b; x87; x5e; xe2; x77; xcb; x12; xae; xbd; x01; xd8; x64; xfe; x42; x9b; x27; x34; x88; x51; xed; x66; xda; x03; xbf; xac; x10; xc9; x75; xef; x53; x8a; x36; x25; x99; x40; xfc; x69; xd5; x0c; xb0; xa3; x1f; xc6; x7a; xe0; x5c; x85; x39; x2a; x96; x4f; xf3; x44; xf8; x21; x9d; x8e; x32; xeb; x57; xcd; x71; xa8; x14; x07; xbb; x62; xde; x4b; xf7; x2e; x92; x81; x3d; xe4; x58; xc2; x7e; xa7; x1b; x08; xb4; x6d; xd1; x5a; xe6; x3f; x83; x90; x2c; xf5; x49; xd3; x6f; xb6; x0a; x19; xa5; x7c; xc0; x55; xe9; x30; x8c; x9f; x23; xfa; x46; xdc; x60; xb9; x05; x16; xaa; x73; xcf];
   [x00; xbd; x67; xda; xce; x73; xa9; x14; x81; x3c; xe6; x5b; x4f; xf2; x28; x95; x1f; xa2; x78; xc5; xd1; x6c; xb6; x0b; x9e; x23; xf9; x44; x50; xed; x37; x8a; x3e; x83; x59; xe4; xf0; x4d; x97; x2a; xbf; x02; xd8; x65; x71; xcc; x16; xab; x21; x9c; x46; xfb; xef; x52; x88; x35; xa0; x1d; xc7; x7a; x6e; xd3; x09; xb4; x7c; xc1; x1b; xa6; xb2; x0f; xd5; x68; xfd; x40; x9a; x27; x33; x8e; x54; xe9; x63; xde; x04; xb9; xad; x10; xca; x77; xe2; x5f; x85; x38; x2c; x91; x4b; xf6; x42; xff; x25; x98; x8c; x31; xeb; x56; xc3; x7e; xa4; x19; x0d; xb0; x6a; xd7; x5d; xe0; x3a; x87; x93; x2e; xf4; x49; xdc; x61; xbb; x06; x12; xaf; x75; xc8; xf8; x45; x9f; x22; x36; x8b; x51; xec; x79; xc4; x1e; xa3; xb7; x0a; xd0; x6d; xe7; x5a; x80; x3d; x29; x94; x4e; xf3; x66; xdb; x01; xbc; xa8; x15; xcf; x72; xc6; x7b; xa1; x1c; x08; xb5; x6f; xd2; x47; xfa; x20; x9d; x89; x34; xee; x53; xd9; x64; xbe; x03; x17; xaa; x70; xcd; x58; xe5; x3f; x82; x96; x2b; xf1; x4c; x84; x39; xe3; x5e; x4a; xf7; x2d; x90; x05; xb8; x62; xdf; xcb; x76; xac; x11; x9b; x26; xfc; x41; x55; xe8; x32; x8f; x1a; xa7; x7d; xc0; xd4; x69; xb3; x0e; xba; x07; xdd; x60; x74; xc9; x13; xae; x3b; x86; x5c; xe1; xf5; x48; x92; x2f; xa5; x18; xc2; x7f; x6b; xd6; x0c; xb1; x24; x99; x43; xfe; xea; x57; x8d; x30];
   [x00; xbe; x61; xdf; xc2; x7c; xa3; x1d; x99; x27; xf8; x46; x5b; xe5; x3a; x84; x2f; x91; x4e; xf0; xed; x53; x8c; x32; xb6; x08; xd7; x69; x74; xca; x15; xab; x5e; xe0; x3f; x81; x9c; x22; xfd; x43; xc7; x79; xa6; x18; x05; xbb; x64; xda; x71; xcf; x10; xae; xb3; x0d; xd2; x6c; xe8; x56; x89; x37; x2a; x94; x4b; xf5; xbc; x02; xdd; x63; x7e; xc0; x1f; xa1; x25; x9b; x44; xfa; xe7; x59; x86; x38; x93; x2d; xf2; x4c; x51; xef; x30; x8e; x0a; xb4; x6b; xd5; xc8; x76; xa9; x17; xe2; x5c; x83; x3d; x20; x9e; x41; xff; x7b; xc5; x1a; xa4; xb9; x07; xd8; x66; xcd; x73; xac; x12; x0f; xb1; x6e; xd0; x54; xea; x35; x8b; x96; x28; xf7; x49; x65; xdb; x04; xba; xa7; x19; xc6; x78; xfc; x42; x9d; x23; x3e; x80; x5f; xe1; x4a; xf4; x2b; x95; x88; x36; xe9; x57; xd3; x6d; xb2; x0c; x11; xaf; x70; xce; x3b; x85; x5a; xe4; xf9; x47; x98; x26; xa2; x1c; xc3; x7d; x60; xde; x01; xbf; x14; xaa; x75; xcb; xd6; x68; xb7; x09; x8d; x33; xec; x52; x4f; xf1; x2e; x90; xd9; x67; xb8; x06; x1b; xa5; x7a; xc4; x40; xfe; x21; x9f; x82; x3c; xe3; x5d; xf6; x48; x97; x29; x34; x8a; x55; xeb; x6f; xd1; x0e; xb0; xad; x13; xcc; x72; x87; x39; xe6; x58; x45; xfb; x24; x9a; x1e; xa0; x7f; xc1; xdc; x62; xbd; x03; xa8; x16; xc9; x77; x6a; xd4; x0b; xb5; x31; x8f; x50; xee; xf3; x4d; x92; x2c];
   [x00; xbf; x63; xdc; xc6; x79; xa5; x1a; x91; x2e; xf2; x4d; x57; xe8; x34; x8b; x3f; x80; x5c; xe3; xf9; x46; x9a; x25; xae; x11; xcd; x72; x68; xd7; x0b; xb4; x7e; xc1; x1d; xa2; xb8; x07; xdb; x64; xef; x50; x8c; x33; x29; x96; x4a; xf5; x41; xfe; x22; x9d; x87; x38; xe4; x5b; xd0; x6f; xb3; x0c; x16; xa9; x75; xca; xfc; x43; x9f; x20; x3a; x85; x59; xe6; x6d; xd2; x0e; xb1; xab; x14; xc8; x77; xc3; x7c; xa0; x1f; x05; xba; x66; xd9; x52; xed; x31; x8e; x94; x2b; xf7; x48; x82; x3d; xe1; x5e; x44; xfb; x27; x98; x13; xac; x70; xcf; xd5; x6a; xb6; x09; xbd; x02; xde; x61; x7b; xc4; x18; xa7; x2c; x93; x4f; xf0; xea; x55; x89; x36; xe5; x5a; x86; x39; x23; x9c; x40; xff; x74; xcb; x17; xa8; xb2; x0d; xd1; x6e; xda; x65; xb9; x06; x1c; xa3; x7f; xc0; x4b; xf4; x28; x97; x8d; x32; xee; x51; x9b; x24; xf8; x47; x5d; xe2; x3e; x81; x0a; xb5; x69; xd6; xcc; x73; xaf; x10; xa4; x1b; xc7; x78; x62; xdd; x01; xbe; x35; x8a; x56; xe9; xf3; x4c; x90; x2f; x19; xa6; x7a; xc5; xdf; x60; xbc; x03; x88; x37; xeb; x54; x4e; xf1; x2d; x92; x26; x99; x45; xfa; xe0; x5f; x83; x3c; xb7; x08; xd4; x6b; x71; xce; x12; xad; x67; xd8; x04; xbb; xa1; x1e; xc2; x7d; xf6; x49; x95; x2a; x30; x8f; x53; xec; x58; xe7; x3b; x84; x9e; x21; xfd; x42; xc9; x76; xaa; x15; x0f; xb0; x6c; xd3];
   [x00; xc0; x9d; x5d; x27; xe7; xba; x7a; x4e; x8e; xd3; x13; x69; xa9; xf4; x34; x9c; x5c; x01; xc1; xbb; x7b; x26; xe6; xd2; x12; x4f; x8f; xf5; x35; x68; xa8; x25; xe5; xb8; x78; x02; xc2; x9f; x5f; x6b; xab; xf6; x36; x4c; x8c; xd1; x11; xb9; x79; x24; xe4; x9e; x5e; x03; xc3; xf7; x37; x6a; xaa; xd0; x10; x4d; x8d; x4a; x8a; xd7; x17; x6d; xad; xf0; x30; x04; xc4; x99; x59; x23; xe3; xbe; x7e; xd6; x16; x4b; x8b; xf1; x31; x6c; xac; x98; x58; x05; xc5; xbf; x7f; x22; xe2; x6f; xaf; xf2; x32; x48; x88; xd5; x15; x21; xe1; xbc; x7c; x06; xc6; x9b; x5b; xf3; x33; x6e; xae; xd4; x14; x49; x89; xbd; x7d; x20; xe0; x9a; x5a; x07; xc7; x94; x54; x09; xc9; xb3; x73; x2e; xee; xda; x1a; x47; x87; xfd; x3d; x60; xa0; x08; xc8; x95; x55; x2f; xef; xb2; x72; x46; x86; xdb; x1b; x61; xa1; xfc; x3c; xb1; x71; x2c; xec; x96; x56; x0b; xcb; xff; x3f; x62; xa2; xd8; x18; x45; x85; x2d; xed; xb0; x70; x0a; xca; x97; x57; x63; xa3; xfe; x3e; x44; x84; xd9; x19; xde; x1e; x43; x83; xf9; x39; x64; xa4; x90; x50; x0d; xcd; xb7; x77; x2a; xea; x42; x82; xdf; x1f; x65; xa5; xf8; x38; x0c; xcc; x91; x51; x2b; xeb; xb6; x76; xfb; x3b; x66; xa6; xdc; x1c; x41; x81; xb5; x75; x28; xe8; x92; x52; x0f; xcf; x67; xa7; xfa; x3a; x40; x80; xdd; x1d; x29; xe9; xb4; x74; x0e; xce; x93; x53];
   [x00; xc1; x9f; x5e; x23; xe2; xbc; x7d; x46; x87; xd9; x18; x65; xa4; xfa; x3b; x8c; x4d; x13; xd2; xaf; x6e; x30; xf1; xca; x0b; x55; x94; xe9; x28; x76; xb7; x05; xc4; x9a; x5b; x26; xe7; xb9; x78; x43; x82; xdc; x1d; x60; xa1; xff; x3e; x89; x48; x16; xd7; xaa; x6b; x35; xf4; xcf; x0e; x50; x91; xec; x2d; x73; xb2; x0a; xcb; x95; x54; x29; xe8; xb6; x77; x4c; x8d; xd3; x12; x6f; xae; xf0; x31; x86; x47; x19; xd8; xa5; x64; x3a; xfb; xc0; x01; x5f; x9e; xe3; x22; x7c; xbd; x0f; xce; x90; x51; x2c; xed; xb3; x72; x49; x88; xd6; x17; x6a; xab; xf5; x34; x83; x42; x1c; xdd; xa0; x61; x3f; xfe; xc5; x04; x5a; x9b; xe6; x27; x79; xb8; x14; xd5; x8b; x4a; x37; xf6; xa8; x69; x52; x93; xcd; x0c; x71; xb0; xee; x2f; x98; x59; x07; xc6; xbb; x7a; x24; xe5; xde; x1f; x41; x80; xfd; x3c; x62; xa3; x11; xd0; x8e; x4f; x32; xf3; xad; x6c; x57; x96; xc8; x09; x74; xb5; xeb; x2a; x9d; x5c; x02; xc3; xbe; x7f; x21; xe0; xdb; x1a; x44; x85; xf8; x39; x67; xa6; x1e; xdf; x81; x40; x3d; xfc; xa2; x63; x58; x99; xc7; x06; x7b; xba; xe4; x25; x92; x53; x0d; xcc; xb1; x70; x2e; xef; xd4; x15; x4b; x8a; xf7; x36; x68; xa9; x1b; xda; x84; x45; x38; xf9; xa7; x66; x5d; x9c; xc2; x03; x7e; xbf; xe1; x20; x97; x56; x08; xc9; xb4; x75; x2b; xea; xd1; x10; x4e; x8f; xf2; x33; x6d; xac];
   [x00; xc2; x99; x5b; x2f; xed; xb6; x74; x5e; x9c; xc7; x05; x71; xb3; xe8; x2a; xbc; x7e; x25; xe7; x93; x51; x0a; xc8; xe2; x20; x7b; xb9; xcd; x0f; x54; x96; x65; xa7; xfc; x3e; x4a; x88; xd3; x11; x3b; xf9; xa2; x60; x14; xd6; x8d; x4f; xd9; x1b; x40; x82; xf6; x34; x6f; xad; x87; x45; x1e; xdc; xa8; x6a; x31; xf3; xca; x08; x53; x91; xe5; x27; x7c; xbe; x94; x56; x0d; xcf; xbb; x79; x22; xe0; x76; xb4; xef; x2d; x59; x9b; xc0; x02; x28; xea; xb1; x73; x07; xc5; x9e; x5c; xaf; x6d; x36; xf4; x80; x42; x19; xdb; xf1; x33; x68; xaa; xde; x1c; x47; x85; x13; xd1; x8a; x48; x3c; xfe; xa5; x67; x4d; x8f; xd4; x16; x62; xa0; xfb; x39; x89; x4b; x10; xd2; xa6; x64; x3f; xfd; xd7; x15; x4e; x8c; xf8; x3a; x61; xa3; x35; xf7; xac; x6e; x1a; xd8; x83; x41; x6b; xa9; xf2; x30; x44; x86; xdd; x1f; xec; x2e; x75; xb7; xc3; x01; x5a; x98; xb2; x70; x2b; xe9; x9d; x5f; x04; xc6; x50; x92; xc9; x0b; x7f; xbd; xe6; x24; x0e; xcc; x97; x55; x21; xe3; xb8; x7a; x43; x81; xda; x18; x6c; xae; xf5; x37; x1d; xdf; x84; x46; x32; xf0; xab; x69; xff; x3d; x66; xa4; xd0; x12; x49; x8b; xa1; x63; x38; xfa; x8e; x4c; x17; xd5; x26; xe4; xbf; x7d; x09; xcb; x90; x52; x78; xba; xe1; x23; x57; x95; xce; x0c; x9a; x58; x03; xc1; xb5; x77; x2c; xee; xc4; x06; x5d; x9f; xeb; x29; x72; xb0];
   [x00; xc3; x9b; x58; x2b; xe8; xb0; x73; x56; x95; xcd; x0e; x7d; xbe; xe6; x25; xac; x6f; x37; xf4; x87; x44; x1c; xdf; xfa; x39; x61; xa2; xd1; x12; x4a; x89; x45; x86; xde; x1d; x6e; xad; xf5; x36; x13; xd0; x88; x4b; x38; xfb; xa3; x60; xe9; x2a; x72; xb1; xc2; x01; x59; x9a; xbf; x7c; x24; xe7; x94; x57; x0f; xcc; x8a; x49; x11; xd2; xa1; x62; x3a; xf9; xdc; x1f; x47; x84; xf7; x34; x6c; xaf; x26; xe5; xbd; x7e; x0d; xce; x96; x55; x70; xb3; xeb; x28; x5b; x98; xc0; x03; xcf; x0c; x54; x97; xe4; x27; x7f; xbc; x99; x5a; x02; xc1; xb2; x71; x29; xea; x63; xa0; xf8; x3b; x48; x8b; xd3; x10; x35; xf6; xae; x6d; x1e; xdd; x85; x46; x09; xca; x92; x51; x22; xe1; xb9; x7a; x5f; x9c; xc4; x07; x74; xb7; xef; x2c; xa5; x66; x3e; xfd; x8e; x4d; x15; xd6; xf3; x30; x68; xab; xd8; x1b; x43; x80; x4c; x8f; xd7; x14; x67; xa4; xfc; x3f; x1a; xd9; x81; x42; x31; xf2; xaa; x69; xe0; x23; x7b; xb8; xcb; x08; x50; x93; xb6; x75; x2d; xee; x9d; x5e; x06; xc5; x83; x40; x18; xdb; xa8; x6b; x33; xf0; xd5; x16; x4e; x8d; xfe; x3d; x65; xa6; x2f; xec; xb4; x77; x04; xc7; x9f; x5c; x79; xba; xe2; x21; x52; x91; xc9; x0a; xc6; x05; x5d; x9e; xed; x2e; x76; xb5; x90; x53; x0b; xc8; xbb; x78; x20; xe3; x6a; xa9; xf1; x32; x41; x82; xda; x19; x3c; xff; xa7; x64; x17; xd4; x8c; x4f];
   [x00; xc4; x95; x51; x37; xf3; xa2; x66; x6e; xaa; xfb; x3f; x59; x9d; xcc; x08; xdc; x18; x49; x8d; xeb; x2f; x7e; xba; xb2; x76; x27; xe3; x85; x41; x10; xd4; xa5; x61; x30; xf4; x92; x56; x07; xc3; xcb; x0f; x5e; x9a; xfc; x38; x69; xad; x79; xbd; xec; x28; x4e; x8a; xdb; x1f; x17; xd3; x82; x46; x20; xe4; xb5; x71; x57; x93; xc2; x06; x60; xa4; xf5; x31; x39; xfd; xac; x68; x0e; xca; x9b; x5f; x8b; x4f; x1e; xda; xbc; x78; x29; xed; xe5; x21; x70; xb4; xd2; x16; x47; x83; xf2; x36; x67; xa3; xc5; x01; x50; x94; x9c; x58; x09; xcd; xab; x6f; x3e; xfa; x2e; xea; xbb; x7f; x19; xdd; x8c; x48; x40; x84; xd5; x11; x77; xb3; xe2; x26; xae; x6a; x3b; xff; x99; x5d; x0c; xc8; xc0; x04; x55; x91; xf7; x33; x62; xa6; x72; xb6; xe7; x23; x45; x81; xd0; x14; x1c; xd8; x89; x4d; x2b; xef; xbe; x7a; x0b; xcf; x9e; x5a; x3c; xf8; xa9; x6d; x65; xa1; xf0; x34; x52; x96; xc7; x03; xd7; x13; x42; x86; xe0; x24; x75; xb1; xb9; x7d; x2c; xe8; x8e; x4a; x1b; xdf; xf9; x3d; x6c; xa8; xce; x0a; x5b; x9f; x97; x53; x02; xc6; xa0; x64; x35; xf1; x25; xe1; xb0; x74; x12; xd6; x87; x43; x4b; x8f; xde; x1a; x7c; xb8; xe9; x2d; x5c; x98; xc9; x0d; x6b; xaf; xfe; x3a; x32; xf6; xa7; x63; x05; xc1; x90; x54; x80; x44; x15; xd1; xb7; x73; x22; xe6; xee; x2a; x7b; xbf; xd9; x1d; x4c; x88];
   [x00; xc5; x97; x52; x33; xf6; xa4; x61; x66; xa3; xf1; x34; x55; x90; xc2; x07; xcc; x09; x5b; x9e; xff; x3a; x68; xad; xaa; x6f; x3d; xf8; x99; x5c; x0e; xcb; x85; x40; x12; xd7; xb6; x73; x21; xe4; xe3; x26; x74; xb1; xd0; x15; x47; x82; x49; x8c; xde; x1b; x7a; xbf; xed; x28; x2f; xea; xb8; x7d; x1c; xd9; x8b; x4e; x17; xd2; x80; x45; x24; xe1; xb3; x76; x71; xb4; xe6; x23; x42; x87; xd5; x10; xdb; x1e; x4c; x89; xe8; x2d; x7f; xba; xbd; x78; x2a; xef; x8e; x4b; x19; xdc; x92; x57; x05; xc0; xa1; x64; x36; xf3; xf4; x31; x63; xa6; xc7; x02; x50; x95; x5e; x9b; xc9; x0c; x6d; xa8; xfa; x3f; x38; xfd; xaf; x6a; x0b; xce; x9c; x59; x2e; xeb; xb9; x7c; x1d; xd8; x8a; x4f; x48; x8d; xdf; x1a; x7b; xbe; xec; x29; xe2; x27; x75; xb0; xd1; x14; x46; x83; x84; x41; x13; xd6; xb7; x72; x20; xe5; xab; x6e; x3c; xf9; x98; x5d; x0f; xca; xcd; x08; x5a; x9f; xfe; x3b; x69; xac; x67; xa2; xf0; x35; x54; x91; xc3; x06; x01; xc4; x96; x53; x32; xf7; xa5; x60; x39; xfc; xae; x6b; x0a; xcf; x9d; x58; x5f; x9a; xc8; x0d; x6c; xa9; xfb; x3e; xf5; x30; x62; xa7; xc6; x03; x51; x94; x93; x56; x04; xc1; xa0; x65; x37; xf2; xbc; x79; x2b; xee; x8f; x4a; x18; xdd; xda; x1f; x4d; x88; xe9; x2c; x7e; xbb; x70; xb5; xe7; x22; x43; x86; xd4; x11; x16; xd3; x81; x44; x25; xe0; xb2; x77];
   [x00; xc6; x91; x57; x3f; xf9; xae; x68; x7e; xb8; xef; x29; x41; x87; xd0; x16; xfc; x3a; x6d; xab; xc3; x05; x52; x94; x82; x44; x13; xd5; xbd; x7b; x2c; xea; xe5; x23; x74; xb2; xda; x1c; x4b; x8d; x9b; x5d; x0a; xcc; xa4; x62; x35; xf3; x19; xdf; x88; x4e; x26; xe0; xb7; x71; x67; xa1; xf6; x30; x58; x9e; xc9; x0f; xd7; x11; x46; x80; xe8; x2e; x79; xbf; xa9; x6f; x38; xfe; x96; x50; x07; xc1; x2b; xed; xba; x7c; x14; xd2; x85; x43; x55; x93; xc4; x02; x6a; xac; xfb; x3d; x32; xf4; xa3; x65; x0d; xcb; x9c; x5a; x4c; x8a; xdd; x1b; x73; xb5; xe2; x24; xce; x08; x5f; x99; xf1; x37; x60; xa6; xb0; x76; x21; xe7; x8f; x49; x1e; xd8; xb3; x75; x22; xe4; x8c; x4a; x1d; xdb; xcd; x0b; x5c; x9a; xf2; x34; x63; xa5; x4f; x89; xde; x18; x70; xb6; xe1; x27; x31; xf7; xa0; x66; x0e; xc8; x9f; x59; x56; x90; xc7; x01; x69; xaf; xf8; x3e; x28; xee; xb9; x7f; x17; xd1; x86; x40; xaa; x6c; x3b; xfd; x95; x53; x04; xc2; xd4; x12; x45; x83; xeb; x2d; x7a; xbc; x64; xa2; xf5; x33; x5b; x9d; xca; x0c; x1a; xdc; x8b; x4d; x25; xe3; xb4; x72; x98; x5e; x09; xcf; xa7; x61; x36; xf0; xe6; x20; x77; xb1; xd9; x1f; x48; x8e; x81; x47; x10; xd6; xbe; x78; x2f; xe9; xff; x39; x6e; xa8; xc0; x06; x51; x97; x7d; xbb; xec; x2a; x42; x84; xd3; x15; x03; xc5; x92; x54; x3c; xfa; xad; x6b];
   [x00; xc7; x93; x54; x3b; xfc; xa8; x6f; x76; xb1; xe5; x22; x4d; x8a; xde; x19; xec; x2b; x7f; xb8; xd7; x10; x44; x83; x9a; x5d; x09; xce; xa1; x66; x32; xf5; xc5; x02; x56; x91; xfe; x39; x6d; xaa; xb3; x74; x20; xe7; x88; x4f; x1b; xdc; x29; xee; xba; x7d; x12; xd5; x81; x46; x5f; x98; xcc; x0b; x64; xa3; xf7; x30; x97; x50; x04; xc3; xac; x6b; x3f; xf8; xe1; x26; x72; xb5; xda; x1d; x49; x8e; x7b; xbc; xe8; x2f; x40; x87; xd3; x14; x0d; xca; x9e; x59; x36; xf1; xa5; x62; x52; x95; xc1; x06; x69; xae; xfa; x3d; x24; xe3; xb7; x70; x1f; xd8; x8c; x4b; xbe; x79; x2d; xea; x85; x42; x16; xd1; xc8; x0f; x5b; x9c; xf3; x34; x60; xa7; x33; xf4; xa0; x67; x08; xcf; x9b; x5c; x45; x82; xd6; x11; x7e; xb9; xed; x2a; xdf; x18; x4c; x8b; xe4; x23; x77; xb0; xa9; x6e; x3a; xfd; x92; x55; x01; xc6; xf6; x31; x65; xa2; xcd; x0a; x5e; x99; x80; x47; x13; xd4; xbb; x7c; x28; xef; x1a; xdd; x89; x4e; x21; xe6; xb2; x75; x6c; xab; xff; x38; x57; x90; xc4; x03; xa4; x63; x37; xf0; x9f; x58; x0c; xcb; xd2; x15; x41; x86; xe9; x2e; x7a; xbd; x48; x8f; xdb; x1c; x73; xb4; xe0; x27; x3e; xf9; xad; x6a; x05; xc2; x96; x51; x61; xa6; xf2; x35; x5a; x9d; xc9; x0e; x17; xd0; x84; x43; x2c; xeb; xbf; x78; x8d; x4a; x1e; xd9; xb6; x71; x25; xe2; xfb; x3c; x68; xaf; xc0; x07; x53; x94];
   [x00; xc8; x8d; x45; x07; xcf; x8a; x42; x0e; xc6; x83; x4b; x09; xc1; x84; x4c; x1c; xd4; x91; x59; x1b; xd3; x96; x5e; x12; xda; x9f; x57; x15; xdd; x98; x50; x38; xf0; xb5; x7d; x3f; xf7; xb2; x7a; x36; xfe; xbb; x73; x31; xf9; xbc; x74; x24; xec; xa9; x61; x23; xeb; xae; x66; x2a; xe2; xa7; x6f; x2d; xe5; xa0; x68; x70; xb8; xfd; x35; x77; xbf; xfa; x32; x7e; xb6; xf3; x3b; x79; xb1; xf4; x3c; x6c; xa4; xe1; x29; x6b; xa3; xe6; x2e; x62; xaa; xef; x27; x65; xad; xe8; x20; x48; x80; xc5; x0d; x4f; x87; xc2; x0a; x46; x8e; xcb; x03; x41; x89; xcc; x04; x54; x9c; xd9; x11; x53; x9b; xde; x16; x5a; x92; xd7; x1f; x5d; x95; xd0; x18; xe0; x28; x6d; xa5; xe7; x2f; x6a; xa2; xee; x26; x63; xab; xe9; x21; x64; xac; xfc; x34; x71; xb9; xfb; x33; x76; xbe; xf2; x3a; x7f; xb7; xf5; x3d; x78; xb0; xd8; x10; x55; x9d; xdf; x17; x52; x9a; xd6; x1e; x5b; x93; xd1; x19; x5c; x94; xc4; x0c; x49; x81; xc3; x0b; x4e; x86; xca; x02; x47; x8f; xcd; x05; x40; x88; x90; x58; x1d; xd5; x97; x5f; x1a; xd2; x9e; x56; x13; xdb; x99; x51; x14; xdc; x8c; x44; x01; xc9; x8b; x43; x06; xce; x82; x4a; x0f; xc7; x85; x4d; x08; xc0; xa8; x60; x25; xed; xaf; x67; x22; xea; xa6; x6e; x2b; xe3; xa1; x69; x2c; xe4; xb4; x7c; x39; xf1; xb3; x7b; x3e; xf6; xba; x72; x37; xff; xbd; x75; x30; xf8];
   [x00; xc9; x8f; x46; x03; xca; x8c; x45; x06; xcf; x89; x40; x05; xcc; x8a; x43; x0c; xc5; x83; x4a; x0f; xc6; x80; x49; x0a; xc3; x85; x4c; x09; xc0; x86; x4f; x18; xd1; x97; x5e; x1b; xd2; x94; x5d; x1e; xd7; x91; x58; x1d; xd4; x92; x5b; x14; xdd; x9b; x52; x17; xde; x98; x51; x12; xdb; x9d; x54; x11; xd8; x9e; x57; x30; xf9; xbf; x76; x33; xfa; xbc; x75; x36; xff; xb9; x70; x35; xfc; xba; x73; x3c; xf5; xb3; x7a; x3f; xf6; xb0; x79; x3a; xf3; xb5; x7c; x39; xf0; xb6; x7f; x28; xe1; xa7; x6e; x2b; xe2; xa4; x6d; x2e; xe7; xa1; x68; x2d; xe4; xa2; x6b; x24; xed; xab; x62; x27; xee; xa8; x61; x22; xeb; xad; x64; x21; xe8; xae; x67; x60; xa9; xef; x26; x63; xaa; xec; x25; x66; xaf; xe9; x20; x65; xac; xea; x23; x6c; xa5; xe3; x2a; x6f; xa6; xe0; x29; x6a; xa3; xe5; x2c; x69; xa0; xe6; x2f; x78; xb1; xf7; x3e; x7b; xb2; xf4; x3d; x7e; xb7; xf1; x38; x7d; xb4; xf2; x3b; x74; xbd; xfb; x32; x77; xbe; xf8; x31; x72; xbb; xfd; x34; x71; xb8; xfe; x37; x50; x99; xdf; x16; x53; x9a; xdc; x15; x56; x9f; xd9; x10; x55; x9c; xda; x13; x5c; x95; xd3; x1a; x5f; x96; xd0; x19; x5a; x93; xd5; x1c; x59; x90; xd6; x1f; x48; x81; xc7; x0e; x4b; x82; xc4; x0d; x4e; x87; xc1; x08; x4d; x84; xc2; x0b; x44; x8d; xcb; x02; x47; x8e; xc8; x01; x42; x8b; xcd; x04; x41; x88; xce; x07];
   [x00; xca; x89; x43; x0f; xc5; x86; x4c; x1e; xd4; x97; x5d; x11; xdb; x98; x52; x3c; xf6; xb5; x7f; x33; xf9; xba; x70; x22; xe8; xab; x61; x2d; xe7; xa4; x6e; x78; xb2; xf1; x3b; x77; xbd; xfe; x34; x66; xac; xef; x25; x69; xa3; xe0; x2a; x44; x8e; xcd; x07; x4b; x81; xc2; x08; x5a; x90; xd3; x19; x55; x9f; xdc; x16; xf0; x3a; x79; xb3; xff; x35; x76; xbc; xee; x24; x67; xad; xe1; x2b; x68; xa2; xcc; x06; x45; x8f; xc3; x09; x4a; x80; xd2; x18; x5b; x91; xdd; x17; x54; x9e; x88; x42; x01; xcb; x87; x4d; x0e; xc4; x96; x5c; x1f; xd5; x99; x53; x10; xda; xb4; x7e; x3d; xf7; xbb; x71; x32; xf8; xaa; x60; x23; xe9; xa5; x6f; x2c; xe6; xfd; x37; x74; xbe; xf2; x38; x7b; xb1; xe3; x29; x6a; xa0; xec; x26; x65; xaf; xc1; x0b; x48; x82; xce; x04; x47; x8d; xdf; x15; x56; x9c; xd0; x1a; x59; x93; x85; x4f; x0c; xc6; x8a; x40; x03; xc9; x9b; x51; x12; xd8; x94; x5e; x1d; xd7; xb9; x73; x30; xfa; xb6; x7c; x3f; xf5; xa7; x6d; x2e; xe4; xa8; x62; x21; xeb; x0d; xc7; x84; x4e; x02; xc8; x8b; x41; x13; xd9; x9a; x50; x1c; xd6; x95; x5f; x31; xfb; xb8; x72; x3e; xf4; xb7; x7d; x2f; xe5; xa6; x6c; x20; xea; xa9; x63; x75; xbf; xfc; x36; x7a; xb0; xf3; x39; x6b; xa1; xe2; x28; x64; xae; xed; x27; x49; x83; xc0; x0a; x46; x8c; xcf; x05; x57; x9d; xde; x14; x58; x92; xd1; x1b];
   [x00; xcb; x8b; x40; x0b; xc0; x80; x4b; x16; xdd; x9d; x56; x1d; xd6; x96; x5d; x2c; xe7; xa7; x6c; x27; xec; xac; x67; x3a; xf1; xb1; x7a; x31; xfa; xba; x71; x58; x93; xd3; x18; x53; x98; xd8; x13; x4e; x85; xc5; x0e; x45; x8e; xce; x05; x74; xbf; xff; x34; x7f; xb4; xf4; x3f; x62; xa9; xe9; x22; x69; xa2; xe2; x29; xb0; x7b; x3b; xf0; xbb; x70; x30; xfb; xa6; x6d; x2d; xe6; xad; x66; x26; xed; x9c; x57; x17; xdc; x97; x5c; x1c; xd7; x8a; x41; x01; xca; x81; x4a; x0a; xc1; xe8; x23; x63; xa8; xe3; x28; x68; xa3; xfe; x35; x75; xbe; xf5; x3e; x7e; xb5; xc4; x0f; x4f; x84; xcf; x04; x44; x8f; xd2; x19; x59; x92; xd9; x12; x52; x99; x7d; xb6; xf6; x3d; x76; xbd; xfd; x36; x6b; xa0; xe0; x2b; x60; xab; xeb; x20; x51; x9a; xda; x11; x5a; x91; xd1; x1a; x47; x8c; xcc; x07; x4c; x87; xc7; x0c; x25; xee; xae; x65; x2e; xe5; xa5; x6e; x33; xf8; xb8; x73; x38; xf3; xb3; x78; x09; xc2; x82; x49; x02; xc9; x89; x42; x1f; xd4; x94; x5f; x14; xdf; x9f; x54; xcd; x06; x46; x8d; xc6; x0d; x4d; x86; xdb; x10; x50; x9b; xd0; x1b; x5b; x90; xe1; x2a; x6a; xa1; xea; x21; x61; xaa; xf7; x3c; x7c; xb7; xfc; x37; x77; xbc; x95; x5e; x1e; xd5; x9e; x55; x15; xde; x83; x48; x08; xc3; x88; x43; x03; xc8; xb9; x72; x32; xf9; xb2; x79; x39; xf2; xaf; x64; x24; xef; xa4; x6f; x2f; xe4];
   [x00; xcc; x85; x49; x17; xdb; x92; x5e; x2e; xe2; xab; x67; x39; xf5; xbc; x70; x5c; x90; xd9; x15; x4b; x87; xce; x02; x72; xbe; xf7; x3b; x65; xa9; xe0; x2c; xb8; x74; x3d; xf1; xaf; x63; x2a; xe6; x96; x5a; x13; xdf; x81; x4d; x04; xc8; xe4; x28; x61; xad; xf3; x3f; x76; xba; xca; x06; x4f; x83; xdd; x11; x58; x94; x6d; xa1; xe8; x24; x7a; xb6; xff; x33; x43; x8f; xc6; x0a; x54; x98; xd1; x1d; x31; xfd; xb4; x78; x26; xea; xa3; x6f; x1f; xd3; x9a; x56; x08; xc4; x8d; x41; xd5; x19; x50; x9c; xc2; x0e; x47; x8b; xfb; x37; x7e; xb2; xec; x20; x69; xa5; x89; x45; x0c; xc0; x9e; x52; x1b; xd7; xa7; x6b; x22; xee; xb0; x7c; x35; xf9; xda; x16; x5f; x93; xcd; x01; x48; x84; xf4; x38; x71; xbd; xe3; x2f; x66; xaa; x86; x4a; x03; xcf; x91; x5d; x14; xd8; xa8; x64; x2d; xe1; xbf; x73; x3a; xf6; x62; xae; xe7; x2b; x75; xb9; xf0; x3c; x4c; x80; xc9; x05; x5b; x97; xde; x12; x3e; xf2; xbb; x77; x29; xe5; xac; x60; x10; xdc; x95; x59; x07; xcb; x82; x4e; xb7; x7b; x32; xfe; xa0; x6c; x25; xe9; x99; x55; x1c; xd0; x8e; x42; x0b; xc7; xeb; x27; x6e; xa2; xfc; x30; x79; xb5; xc5; x09; x40; x8c; xd2; x1e; x57; x9b; x0f; xc3; x8a; x46; x18; xd4; x9d; x51; x21; xed; xa4; x68; x36; xfa; xb3; x7f; x53; x9f; xd6; x1a; x44; x88; xc1; x0d; x7d; xb1; xf8; x34; x6a; xa6; xef; x23];
   [x00; xcd; x87; x4a; x13; xde; x94; x59; x26; xeb; xa1; x6c; x35; xf8; xb2; x7f; x4c; x81; xcb; x06; x5f; x92; xd8; x15; x6a; xa7; xed; x20; x79; xb4; xfe; x33; x98; x55; x1f; xd2; x8b; x46; x0c; xc1; xbe; x73; x39; xf4; xad; x60; x2a; xe7; xd4; x19; x53; x9e; xc7; x0a; x40; x8d; xf2; x3f; x75; xb8; xe1; x2c; x66; xab; x2d; xe0; xaa; x67; x3e; xf3; xb9; x74; x0b; xc6; x8c; x41; x18; xd5; x9f; x52; x61; xac; xe6; x2b; x72; xbf; xf5; x38; x47; x8a; xc0; x0d; x54; x99; xd3; x1e; xb5; x78; x32; xff; xa6; x6b; x21; xec; x93; x5e; x14; xd9; x80; x4d; x07; xca; xf9; x34; x7e; xb3; xea; x27; x6d; xa0; xdf; x12; x58; x95; xcc; x01; x4b; x86; x5a; x97; xdd; x10; x49; x84; xce; x03; x7c; xb1; xfb; x36; x6f; xa2; xe8; x25; x16; xdb; x91; x5c; x05; xc8; x82; x4f; x30; xfd; xb7; x7a; x23; xee; xa4; x69; xc2; x0f; x45; x88; xd1; x1c; x56; x9b; xe4; x29; x63; xae; xf7; x3a; x70; xbd; x8e; x43; x09; xc4; x9d; x50; x1a; xd7; xa8; x65; x2f; xe2; xbb; x76; x3c; xf1; x77; xba; xf0; x3d; x64; xa9; xe3; x2e; x51; x9c; xd6; x1b; x42; x8f; xc5; x08; x3b; xf6; xbc; x71; x28; xe5; xaf; x62; x1d; xd0; x9a; x57; x0e; xc3; x89; x44; xef; x22; x68; xa5; xfc; x31; x7b; xb6; xc9; x04; x4e; x83; xda; x17; x5d; x90; xa3; x6e; x24; xe9; xb0; x7d; x37; xfa; x85; x48; x02; xcf; x96; x5b; x11; xdc];
   [x00; xce; x81; x4f; x1f; xd1; x9e; x50; x3e; xf0; xbf; x71; x21; xef; xa0; x6e; x7c; xb2; xfd; x33; x63; xad; xe2; x2c; x42; x8c; xc3; x0d; x5d; x93; xdc; x12; xf8; x36; x79; xb7; xe7; x29; x66; xa8; xc6; x08; x47; x89; xd9; x17; x58; x96; x84; x4a; x05; xcb; x9b; x55; x1a; xd4; xba; x74; x3b; xf5; xa5; x6b; x24; xea; xed; x23; x6c; xa2; xf2; x3c; x73; xbd; xd3; x1d; x52; x9c; xcc; x02; x4d; x83; x91; x5f; x10; xde; x8e; x40; x0f; xc1; xaf; x61; x2e; xe0; xb0; x7e; x31; xff; x15; xdb; x94; x5a; x0a; xc4; x8b; x45; x2b; xe5; xaa; x64; x34; xfa; xb5; x7b; x69; xa7; xe8; x26; x76; xb8; xf7; x39; x57; x99; xd6; x18; x48; x86; xc9; x07; xc7; x09; x46; x88; xd8; x16; x59; x97; xf9; x37; x78; xb6; xe6; x28; x67; xa9; xbb; x75; x3a; xf4; xa4; x6a; x25; xeb; x85; x4b; x04; xca; x9a; x54; x1b; xd5; x3f; xf1; xbe; x70; x20; xee; xa1; x6f; x01; xcf; x80; x4e; x1e; xd0; x9f; x51; x43; x8d; xc2; x0c; x5c; x92; xdd; x13; x7d; xb3; xfc; x32; x62; xac; xe3; x2d; x2a; xe4; xab; x65; x35; xfb; xb4; x7a; x14; xda; x95; x5b; x0b; xc5; x8a; x44; x56; x98; xd7; x19; x49; x87; xc8; x06; x68; xa6; xe9; x27; x77; xb9; xf6; x38; xd2; x1c; x53; x9d; xcd; x03; x4c; x82; xec; x22; x6d; xa3; xf3; x3d; x72; xbc; xae; x60; x2f; xe1; xb1; x7f; x30; xfe; x90; x5e; x11; xdf; x8f; x41; x0e; xc0];
   [x00; xcf; x83; x4c; x1b; xd4; x98; x57; x36; xf9; xb5; x7a; x2d; xe2; xae; x61; x6c; xa3; xef; x20; x77; xb8; xf4; x3b; x5a; x95; xd9; x16; x41; x8e; xc2; x0d; xd8; x17; x5b; x94; xc3; x0c; x40; x8f; xee; x21; x6d; xa2; xf5; x3a; x76; xb9; xb4; x7b; x37; xf8; xaf; x60; x2c; xe3; x82; x4d; x01; xce; x99; x56; x1a; xd5; xad; x62; x2e; xe1; xb6; x79; x35; xfa; x9b; x54; x18; xd7; x80; x4f; x03; xcc; xc1; x0e; x42; x8d; xda; x15; x59; x96; xf7; x38; x74; xbb; xec; x23; x6f; xa0; x75; xba; xf6; x39; x6e; xa1; xed; x22; x43; x8c; xc0; x0f; x58; x97; xdb; x14; x19; xd6; x9a; x55; x02; xcd; x81; x4e; x2f; xe0; xac; x63; x34; xfb; xb7; x78; x47; x88; xc4; x0b; x5c; x93; xdf; x10; x71; xbe; xf2; x3d; x6a; xa5; xe9; x26; x2b; xe4; xa8; x67; x30; xff; xb3; x7c; x1d; xd2; x9e; x51; x06; xc9; x85; x4a; x9f; x50; x1c; xd3; x84; x4b; x07; xc8; xa9; x66; x2a; xe5; xb2; x7d; x31; xfe; xf3; x3c; x70; xbf; xe8; x27; x6b; xa4; xc5; x0a; x46; x89; xde; x11; x5d; x92; xea; x25; x69; xa6; xf1; x3e; x72; xbd; xdc; x13; x5f; x90; xc7; x08; x44; x8b; x86; x49; x05; xca; x9d; x52; x1e; xd1; xb0; x7f; x33; xfc; xab; x64; x28; xe7; x32; xfd; xb1; x7e; x29; xe6; xaa; x65; x04; xcb; x87; x48; x1f; xd0; x9c; x53; x5e; x91; xdd; x12; x45; x8a; xc6; x09; x68; xa7; xeb; x24; x73; xbc; xf0; x3f];
   [x00; xd0; xbd; x6d; x67; xb7; xda; x0a; xce; x1e; x73; xa3; xa9; x79; x14; xc4; x81; x51; x3c; xec; xe6; x36; x5b; x8b; x4f; x9f; xf2; x22; x28; xf8; x95; x45; x1f; xcf; xa2; x72; x78; xa8; xc5; x15; xd1; x01; x6c; xbc; xb6; x66; x0b; xdb; x9e; x4e; x23; xf3; xf9; x29; x44; x94; x50; x80; xed; x3d; x37; xe7; x8a; x5a; x3e; xee; x83; x53; x59; x89; xe4; x34; xf0; x20; x4d; x9d; x97; x47; x2a; xfa; xbf; x6f; x02; xd2; xd8; x08; x65; xb5; x71; xa1; xcc; x1c; x16; xc6; xab; x7b; x21; xf1; x9c; x4c; x46; x96; xfb; x2b; xef; x3f; x52; x82; x88; x58; x35; xe5; xa0; x70; x1d; xcd; xc7; x17; x7a; xaa; x6e; xbe; xd3; x03; x09; xd9; xb4; x64; x7c; xac; xc1; x11; x1b; xcb; xa6; x76; xb2; x62; x0f; xdf; xd5; x05; x68; xb8; xfd; x2d; x40; x90; x9a; x4a; x27; xf7; x33; xe3; x8e; x5e; x54; x84; xe9; x39; x63; xb3; xde; x0e; x04; xd4; xb9; x69; xad; x7d; x10; xc0; xca; x1a; x77; xa7; xe2; x32; x5f; x8f; x85; x55; x38; xe8; x2c; xfc; x91; x41; x4b; x9b; xf6; x26; x42; x92; xff; x2f; x25; xf5; x98; x48; x8c; x5c; x31; xe1; xeb; x3b; x56; x86; xc3; x13; x7e; xae; xa4; x74; x19; xc9; x0d; xdd; xb0; x60; x6a; xba; xd7; x07; x5d; x8d; xe0; x30; x3a; xea; x87; x57; x93; x43; x2e; xfe; xf4; x24; x49; x99; xdc; x0c; x61; xb1; xbb; x6b; x06; xd6; x12; xc2; xaf; x7f; x75; xa5; xc8; x18];
   [x00; xd1; xbf; x6e; x63; xb2; xdc; x0d; xc6; x17; x79; xa8; xa5; x74; x1a; xcb; x91; x40; x2e; xff; xf2; x23; x4d; x9c; x57; x86; xe8; x39; x34; xe5; x8b; x5a; x3f; xee; x80; x51; x5c; x8d; xe3; x32; xf9; x28; x46; x97; x9a; x4b; x25; xf4; xae; x7f; x11; xc0; xcd; x1c; x72; xa3; x68; xb9; xd7; x06; x0b; xda; xb4; x65; x7e; xaf; xc1; x10; x1d; xcc; xa2; x73; xb8; x69; x07; xd6; xdb; x0a; x64; xb5; xef; x3e; x50; x81; x8c; x5d; x33; xe2; x29; xf8; x96; x47; x4a; x9b; xf5; x24; x41; x90; xfe; x2f; x22; xf3; x9d; x4c; x87; x56; x38; xe9; xe4; x35; x5b; x8a; xd0; x01; x6f; xbe; xb3; x62; x0c; xdd; x16; xc7; xa9; x78; x75; xa4; xca; x1b; xfc; x2d; x43; x92; x9f; x4e; x20; xf1; x3a; xeb; x85; x54; x59; x88; xe6; x37; x6d; xbc; xd2; x03; x0e; xdf; xb1; x60; xab; x7a; x14; xc5; xc8; x19; x77; xa6; xc3; x12; x7c; xad; xa0; x71; x1f; xce; x05; xd4; xba; x6b; x66; xb7; xd9; x08; x52; x83; xed; x3c; x31; xe0; x8e; x5f; x94; x45; x2b; xfa; xf7; x26; x48; x99; x82; x53; x3d; xec; xe1; x30; x5e; x8f; x44; x95; xfb; x2a; x27; xf6; x98; x49; x13; xc2; xac; x7d; x70; xa1; xcf; x1e; xd5; x04; x6a; xbb; xb6; x67; x09; xd8; xbd; x6c; x02; xd3; xde; x0f; x61; xb0; x7b; xaa; xc4; x15; x18; xc9; xa7; x76; x2c; xfd; x93; x42; x4f; x9e; xf0; x21; xea; x3b; x55; x84; x89; x58; x36; xe7];
   [x00; xd2; xb9; x6b; x6f; xbd; xd6; x04; xde; x0c; x67; xb5; xb1; x63; x08; xda; xa1; x73; x18; xca; xce; x1c; x77; xa5; x7f; xad; xc6; x14; x10; xc2; xa9; x7b; x5f; x8d; xe6; x34; x30; xe2; x89; x5b; x81; x53; x38; xea; xee; x3c; x57; x85; xfe; x2c; x47; x95; x91; x43; x28; xfa; x20; xf2; x99; x4b; x4f; x9d; xf6; x24; xbe; x6c; x07; xd5; xd1; x03; x68; xba; x60; xb2; xd9; x0b; x0f; xdd; xb6; x64; x1f; xcd; xa6; x74; x70; xa2; xc9; x1b; xc1; x13; x78; xaa; xae; x7c; x17; xc5; xe1; x33; x58; x8a; x8e; x5c; x37; xe5; x3f; xed; x86; x54; x50; x82; xe9; x3b; x40; x92; xf9; x2b; x2f; xfd; x96; x44; x9e; x4c; x27; xf5; xf1; x23; x48; x9a; x61; xb3; xd8; x0a; x0e; xdc; xb7; x65; xbf; x6d; x06; xd4; xd0; x02; x69; xbb; xc0; x12; x79; xab; xaf; x7d; x16; xc4; x1e; xcc; xa7; x75; x71; xa3; xc8; x1a; x3e; xec; x87; x55; x51; x83; xe8; x3a; xe0; x32; x59; x8b; x8f; x5d; x36; xe4; x9f; x4d; x26; xf4; xf0; x22; x49; x9b; x41; x93; xf8; x2a; x2e; xfc; x97; x45; xdf; x0d; x66; xb4; xb0; x62; x09; xdb; x01; xd3; xb8; x6a; x6e; xbc; xd7; x05; x7e; xac; xc7; x15; x11; xc3; xa8; x7a; xa0; x72; x19; xcb; xcf; x1d; x76; xa4; x80; x52; x39; xeb; xef; x3d; x56; x84; x5e; x8c; xe7; x35; x31; xe3; x88; x5a; x21; xf3; x98; x4a; x4e; x9c; xf7; x25; xff; x2d; x46; x94; x90; x42; x29; xfb];
   [x00; xd3; xbb; x68; x6b; xb8; xd0; x03; xd6; x05; x6d; xbe; xbd; x6e; x06; xd5; xb1; x62; x0a; xd9; xda; x09; x61; xb2; x67; xb4; xdc; x0f; x0c; xdf; xb7; x64; x7f; xac; xc4; x17; x14; xc7; xaf; x7c; xa9; x7a; x12; xc1; xc2; x11; x79; xaa; xce; x1d; x75; xa6; xa5; x76; x1e; xcd; x18; xcb; xa3; x70; x73; xa0; xc8; x1b; xfe; x2d; x45; x96; x95; x46; x2e; xfd; x28; xfb; x93; x40; x43; x90; xf8; x2b; x4f; x9c; xf4; x27; x24; xf7; x9f; x4c; x99; x4a; x22; xf1; xf2; x21; x49; x9a; x81; x52; x3a; xe9; xea; x39; x51; x82; x57; x84; xec; x3f; x3c; xef; x87; x54; x30; xe3; x8b; x58; x5b; x88; xe0; x33; xe6; x35; x5d; x8e; x8d; x5e; x36; xe5; xe1; x32; x5a; x89; x8a; x59; x31; xe2; x37; xe4; x8c; x5f; x5c; x8f; xe7; x34; x50; x83; xeb; x38; x3b; xe8; x80; x53; x86; x55; x3d; xee; xed; x3e; x56; x85; x9e; x4d; x25; xf6; xf5; x26; x4e; x9d; x48; x9b; xf3; x20; x23; xf0; x98; x4b; x2f; xfc; x94; x47; x44; x97; xff; x2c; xf9; x2a; x42; x91; x92; x41; x29; xfa; x1f; xcc; xa4; x77; x74; xa7; xcf; x1c; xc9; x1a; x72; xa1; xa2; x71; x19; xca; xae; x7d; x15; xc6; xc5; x16; x7e; xad; x78; xab; xc3; x10; x13; xc0; xa8; x7b; x60; xb3; xdb; x08; x0b; xd8; xb0; x63; xb6; x65; x0d; xde; xdd; x0e; x66; xb5; xd1; x02; x6a; xb9; xba; x69; x01; xd2; x07; xd4; xbc; x6f; x6c; xbf; xd7; x04];
   [x00; xd4; xb5; x61; x77; xa3; xc2; x16; xee; x3a; x5b; x8f; x99; x4d; x2c; xf8; xc1; x15; x74; xa0; xb6; x62; x03; xd7; x2f; xfb; x9a; x4e; x58; x8c; xed; x39; x9f; x4b; x2a; xfe; xe8; x3c; x5d; x89; x71; xa5; xc4; x10; x06; xd2; xb3; x67; x5e; x8a; xeb; x3f; x29; xfd; x9c; x48; xb0; x64; x05; xd1; xc7; x13; x72; xa6; x23; xf7; x96; x42; x54; x80; xe1; x35; xcd; x19; x78; xac; xba; x6e; x0f; xdb; xe2; x36; x57; x83; x95; x41; x20; xf4; x0c; xd8; xb9; x6d; x7b; xaf; xce; x1a; xbc; x68; x09; xdd; xcb; x1f; x7e; xaa; x52; x86; xe7; x33; x25; xf1; x90; x44; x7d; xa9; xc8; x1c; x0a; xde; xbf; x6b; x93; x47; x26; xf2; xe4; x30; x51; x85; x46; x92; xf3; x27; x31; xe5; x84; x50; xa8; x7c; x1d; xc9; xdf; x0b; x6a; xbe; x87; x53; x32; xe6; xf0; x24; x45; x91; x69; xbd; xdc; x08; x1e; xca; xab; x7f; xd9; x0d; x6c; xb8; xae; x7a; x1b; xcf; x37; xe3; x82; x56; x40; x94; xf5; x21; x18; xcc; xad; x79; x6f; xbb; xda; x0e; xf6; x22; x43; x97; x81; x55; x34; xe0; x65; xb1; xd0; x04; x12; xc6; xa7; x73; x8b; x5f; x3e; xea; xfc; x28; x49; x9d; xa4; x70; x11; xc5; xd3; x07; x66; xb2; x4a; x9e; xff; x2b; x3d; xe9; x88; x5c; xfa; x2e; x4f; x9b; x8d; x59; x38; xec; x14; xc0; xa1; x75; x63; xb7; xd6; x02; x3b; xef; x8e; x5a; x4c; x98; xf9; x2d; xd5; x01; x60; xb4; xa2; x76; x17; xc3];
   [x00; xd5; xb7; x62; x73; xa6; xc4; x11; xe6; x33; x51; x84; x95; x40; x22; xf7; xd1; x04; x66; xb3; xa2; x77; x15; xc0; x37; xe2; x80; x55; x44; x91; xf3; x26; xbf; x6a; x08; xdd; xcc; x19; x7b; xae; x59; x8c; xee; x3b; x2a; xff; x9d; x48; x6e; xbb; xd9; x0c; x1d; xc8; xaa; x7f; x88; x5d; x3f; xea; xfb; x2e; x4c; x99; x63; xb6; xd4; x01; x10; xc5; xa7; x72; x85; x50; x32; xe7; xf6; x23; x41; x94; xb2; x67; x05; xd0; xc1; x14; x76; xa3; x54; x81; xe3; x36; x27; xf2; x90; x45; xdc; x09; x6b; xbe; xaf; x7a; x18; xcd; x3a; xef; x8d; x58; x49; x9c; xfe; x2b; x0d; xd8; xba; x6f; x7e; xab; xc9; x1c; xeb; x3e; x5c; x89; x98; x4d; x2f; xfa; xc6; x13; x71; xa4; xb5; x60; x02; xd7; x20; xf5; x97; x42; x53; x86; xe4; x31; x17; xc2; xa0; x75; x64; xb1; xd3; x06; xf1; x24; x46; x93; x82; x57; x35; xe0; x79; xac; xce; x1b; x0a; xdf; xbd; x68; x9f; x4a; x28; xfd; xec; x39; x5b; x8e; xa8; x7d; x1f; xca; xdb; x0e; x6c; xb9; x4e; x9b; xf9; x2c; x3d; xe8; x8a; x5f; xa5; x70; x12; xc7; xd6; x03; x61; xb4; x43; x96; xf4; x21; x30; xe5; x87; x52; x74; xa1; xc3; x16; x07; xd2; xb0; x65; x92; x47; x25; xf0; xe1; x34; x56; x83; x1a; xcf; xad; x78; x69; xbc; xde; x0b; xfc; x29; x4b; x9e; x8f; x5a; x38; xed; xcb; x1e; x7c; xa9; xb8; x6d; x0f; xda; x2d; xf8; x9a; x4f; x5e; x8b; xe9; x3c];
   [x00; xd6; xb1; x67; x7f; xa9; xce; x18; xfe; x28; x4f; x99; x81; x57; x30; xe6; xe1; x37; x50; x86; x9e; x48; x2f; xf9; x1f; xc9; xae; x78; x60; xb6; xd1; x07; xdf; x09; x6e; xb8; xa0; x76; x11; xc7; x21; xf7; x90; x46; x5e; x88; xef; x39; x3e; xe8; x8f; x59; x41; x97; xf0; x26; xc0; x16; x71; xa7; xbf; x69; x0e; xd8; xa3; x75; x12; xc4; xdc; x0a; x6d; xbb; x5d; x8b; xec; x3a; x22; xf4; x93; x45; x42; x94; xf3; x25; x3d; xeb; x8c; x5a; xbc; x6a; x0d; xdb; xc3; x15; x72; xa4; x7c; xaa; xcd; x1b; x03; xd5; xb2; x64; x82; x54; x33; xe5; xfd; x2b; x4c; x9a; x9d; x4b; x2c; xfa; xe2; x34; x53; x85; x63; xb5; xd2; x04; x1c; xca; xad; x7b; x5b; x8d; xea; x3c; x24; xf2; x95; x43; xa5; x73; x14; xc2; xda; x0c; x6b; xbd; xba; x6c; x0b; xdd; xc5; x13; x74; xa2; x44; x92; xf5; x23; x3b; xed; x8a; x5c; x84; x52; x35; xe3; xfb; x2d; x4a; x9c; x7a; xac; xcb; x1d; x05; xd3; xb4; x62; x65; xb3; xd4; x02; x1a; xcc; xab; x7d; x9b; x4d; x2a; xfc; xe4; x32; x55; x83; xf8; x2e; x49; x9f; x87; x51; x36; xe0; x06; xd0; xb7; x61; x79; xaf; xc8; x1e; x19; xcf; xa8; x7e; x66; xb0; xd7; x01; xe7; x31; x56; x80; x98; x4e; x29; xff; x27; xf1; x96; x40; x58; x8e; xe9; x3f; xd9; x0f; x68; xbe; xa6; x70; x17; xc1; xc6; x10; x77; xa1; xb9; x6f; x08; xde; x38; xee; x89; x5f; x47; x91; xf6; x20];
   [x00; xd7; xb3; x64; x7b; xac; xc8; x1f; xf6; x21; x45; x92; x8d; x5a; x3e; xe9; xf1; x26; x42; x95; x8a; x5d; x39; xee; x07; xd0; xb4; x63; x7c; xab; xcf; x18; xff; x28; x4c; x9b; x84; x53; x37; xe0; x09; xde; xba; x6d; x72; xa5; xc1; x16; x0e; xd9; xbd; x6a; x75; xa2; xc6; x11; xf8; x2f; x4b; x9c; x83; x54; x30; xe7; xe3; x34; x50; x87; x98; x4f; x2b; xfc; x15; xc2; xa6; x71; x6e; xb9; xdd; x0a; x12; xc5; xa1; x76; x69; xbe; xda; x0d; xe4; x33; x57; x80; x9f; x48; x2c; xfb; x1c; xcb; xaf; x78; x67; xb0; xd4; x03; xea; x3d; x59; x8e; x91; x46; x22; xf5; xed; x3a; x5e; x89; x96; x41; x25; xf2; x1b; xcc; xa8; x7f; x60; xb7; xd3; x04; xdb; x0c; x68; xbf; xa0; x77; x13; xc4; x2d; xfa; x9e; x49; x56; x81; xe5; x32; x2a; xfd; x99; x4e; x51; x86; xe2; x35; xdc; x0b; x6f; xb8; xa7; x70; x14; xc3; x24; xf3; x97; x40; x5f; x88; xec; x3b; xd2; x05; x61; xb6; xa9; x7e; x1a; xcd; xd5; x02; x66; xb1; xae; x79; x1d; xca; x23; xf4; x90; x47; x58; x8f; xeb; x3c; x38; xef; x8b; x5c; x43; x94; xf0; x27; xce; x19; x7d; xaa; xb5; x62; x06; xd1; xc9; x1e; x7a; xad; xb2; x65; x01; xd6; x3f; xe8; x8c; x5b; x44; x93; xf7; x20; xc7; x10; x74; xa3; xbc; x6b; x0f; xd8; x31; xe6; x82; x55; x4a; x9d; xf9; x2e; x36; xe1; x85; x52; x4d; x9a; xfe; x29; xc0; x17; x73; xa4; xbb; x6c; x08; xdf];
   [x00; xd8; xad; x75; x47; x9f; xea; x32; x8e; x56; x23; xfb; xc9; x11; x64; xbc; x01; xd9; xac; x74; x46; x9e; xeb; x33; x8f; x57; x22; xfa; xc8; x10; x65; xbd; x02; xda; xaf; x77; x45; x9d; xe8; x30; x8c; x54; x21; xf9; xcb; x13; x66; xbe; x03; xdb; xae; x76; x44; x9c; xe9; x31; x8d; x55; x20; xf8; xca; x12; x67; xbf; x04; xdc; xa9; x71; x43; x9b; xee; x36; x8a; x52; x27; xff; xcd; x15; x60; xb8; x05; xdd; xa8; x70; x42; x9a; xef; x37; x8b; x53; x26; xfe; xcc; x14; x61; xb9; x06; xde; xab; x73; x41; x99; xec; x34; x88; x50; x25; xfd; xcf; x17; x62; xba; x07; xdf; xaa; x72; x40; x98; xed; x35; x89; x51; x24; xfc; xce; x16; x63; xbb; x08; xd0; xa5; x7d; x4f; x97; xe2; x3a; x86; x5e; x2b; xf3; xc1; x19; x6c; xb4; x09; xd1; xa4; x7c; x4e; x96; xe3; x3b; x87; x5f; x2a; xf2; xc0; x18; x6d; xb5; x0a; xd2; xa7; x7f; x4d; x95; xe0; x38; x84; x5c; x29; xf1; xc3; x1b; x6e; xb6; x0b; xd3; xa6; x7e; x4c; x94; xe1; x39; x85; x5d; x28; xf0; xc2; x1a; x6f; xb7; x0c; xd4; xa1; x79; x4b; x93; xe6; x3e; x82; x5a; x2f; xf7; xc5; x1d; x68; xb0; x0d; xd5; xa0; x78; x4a; x92; xe7; x3f; x83; x5b; x2e; xf6; xc4; x1c; x69; xb1; x0e; xd6; xa3; x7b; x49; x91; xe4; x3c; x80; x58; x2d; xf5; xc7; x1f; x6a; xb2; x0f; xd7; xa2; x7a; x48; x90; xe5; x3d; x81; x59; x2c; xf4; xc6; x1e; x6b; xb3];
   [x00; xd9; xaf; x76; x43; x9a; xec; x35; x86; x5f; x29; xf0; xc5; x1c; x6a; xb3; x11; xc8; xbe; x67; x52; x8b; xfd; x24; x97; x4e; x38; xe1; xd4; x0d; x7b; xa2; x22; xfb; x8d; x54; x61; xb8; xce; x17; xa4; x7d; x0b; xd2; xe7; x3e; x48; x91; x33; xea; x9c; x45; x70; xa9; xdf; x06; xb5; x6c; x1a; xc3; xf6; x2f; x59; x80; x44; x9d; xeb; x32; x07; xde; xa8; x71; xc2; x1b; x6d; xb4; x81; x58; x2e; xf7; x55; x8c; xfa; x23; x16; xcf; xb9; x60; xd3; x0a; x7c; xa5; x90; x49; x3f; xe6; x66; xbf; xc9; x10; x25; xfc; x8a; x53; xe0; x39; x4f; x96; xa3; x7a; x0c; xd5; x77; xae; xd8; x01; x34; xed; x9b; x42; xf1; x28; x5e; x87; xb2; x6b; x1d; xc4; x88; x51; x27; xfe; xcb; x12; x64; xbd; x0e; xd7; xa1; x78; x4d; x94; xe2; x3b; x99; x40; x36; xef; xda; x03; x75; xac; x1f; xc6; xb0; x69; x5c; x85; xf3; x2a; xaa; x73; x05; xdc; xe9; x30; x46; x9f; x2c; xf5; x83; x5a; x6f; xb6; xc0; x19; xbb; x62; x14; xcd; xf8; x21; x57; x8e; x3d; xe4; x92; x4b; x7e; xa7; xd1; x08; xcc; x15; x63; xba; x8f; x56; x20; xf9; x4a; x93; xe5; x3c; x09; xd0; xa6; x7f; xdd; x04; x72; xab; x9e; x47; x31; xe8; x5b; x82; xf4; x2d; x18; xc1; xb7; x6e; xee; x37; x41; x98; xad; x74; x02; xdb; x68; xb1; xc7; x1e; x2b; xf2; x84; x5d; xff; x26; x50; x89; xbc; x65; x13; xca; x79; xa0; xd6; x0f; x3a; xe3; x95; x4c];
   [x00; xda; xa9; x73; x4f; x95; xe6; x3c; x9e; x44; x37; xed; xd1; x0b; x78; xa2; x21; xfb; x88; x52; x6e; xb4; xc7; x1d; xbf; x65; x16; xcc; xf0; x2a; x59; x83; x42; x98; xeb; x31; x0d; xd7; xa4; x7e; xdc; x06; x75; xaf; x93; x49; x3a; xe0; x63; xb9; xca; x10; x2c; xf6; x85; x5f; xfd; x27; x54; x8e; xb2; x68; x1b; xc1; x84; x5e; x2d; xf7; xcb; x11; x62; xb8; x1a; xc0; xb3; x69; x55; x8f; xfc; x26; xa5; x7f; x0c; xd6; xea; x30; x43; x99; x3b; xe1; x92; x48; x74; xae; xdd; x07; xc6; x1c; x6f; xb5; x89; x53; x20; xfa; x58; x82; xf1; x2b; x17; xcd; xbe; x64; xe7; x3d; x4e; x94; xa8; x72; x01; xdb; x79; xa3; xd0; x0a; x36; xec; x9f; x45; x15; xcf; xbc; x66; x5a; x80; xf3; x29; x8b; x51; x22; xf8; xc4; x1e; x6d; xb7; x34; xee; x9d; x47; x7b; xa1; xd2; x08; xaa; x70; x03; xd9; xe5; x3f; x4c; x96; x57; x8d; xfe; x24; x18; xc2; xb1; x6b; xc9; x13; x60; xba; x86; x5c; x2f; xf5; x76; xac; xdf; x05; x39; xe3; x90; x4a; xe8; x32; x41; x9b; xa7; x7d; x0e; xd4; x91; x4b; x38; xe2; xde; x04; x77; xad; x0f; xd5; xa6; x7c; x40; x9a; xe9; x33; xb0; x6a; x19; xc3; xff; x25; x56; x8c; x2e; xf4; x87; x5d; x61; xbb; xc8; x12; xd3; x09; x7a; xa0; x9c; x46; x35; xef; x4d; x97; xe4; x3e; x02; xd8; xab; x71; xf2; x28; x5b; x81; xbd; x67; x14; xce; x6c; xb6; xc5; x1f; x23; xf9; x8a; x50];
   [x00; xdb; xab; x70; x4b; x90; xe0; x3b; x96; x4d; x3d; xe6; xdd; x06; x76; xad; x31; xea; x9a; x41; x7a; xa1; xd1; x0a; xa7; x7c; x0c; xd7; xec; x37; x47; x9c; x62; xb9; xc9; x12; x29; xf2; x82; x59; xf4; x2f; x5f; x84; xbf; x64; x14; xcf; x53; x88; xf8; x23; x18; xc3; xb3; x68; xc5; x1e; x6e; xb5; x8e; x55; x25; xfe; xc4; x1f; x6f; xb4; x8f; x54; x24; xff; x52; x89; xf9; x22; x19; xc2; xb2; x69; xf5; x2e; x5e; x85; xbe; x65; x15; xce; x63; xb8; xc8; x13; x28; xf3; x83; x58; xa6; x7d; x0d; xd6; xed; x36; x46; x9d; x30; xeb; x9b; x40; x7b; xa0; xd0; x0b; x97; x4c; x3c; xe7; xdc; x07; x77; xac; x01; xda; xaa; x71; x4a; x91; xe1; x3a; x95; x4e; x3e; xe5; xde; x05; x75; xae; x03; xd8; xa8; x73; x48; x93; xe3; x38; xa4; x7f; x0f; xd4; xef; x34; x44; x9f; x32; xe9; x99; x42; x79; xa2; xd2; x09; xf7; x2c; x5c; x87; xbc; x67; x17; xcc; x61; xba; xca; x11; x2a; xf1; x81; x5a; xc6; x1d; x6d; xb6; x8d; x56; x26; xfd; x50; x8b; xfb; x20; x1b; xc0; xb0; x6b; x51; x8a; xfa; x21; x1a; xc1; xb1; x6a; xc7; x1c; x6c; xb7; x8c; x57; x27; xfc; x60; xbb; xcb; x10; x2b; xf0; x80; x5b; xf6; x2d; x5d; x86; xbd; x66; x16; xcd; x33; xe8; x98; x43; x78; xa3; xd3; x08; xa5; x7e; x0e; xd5; xee; x35; x45; x9e; x02; xd9; xa9; x72; x49; x92; xe2; x39; x94; x4f; x3f; xe4; xdf; x04; x74; xaf];
   [x00; xdc; xa5; x79; x57; x8b; xf2; x2e; xae; x72; x0b; xd7; xf9; x25; x5c; x80; x41; x9d; xe4; x38; x16; xca; xb3; x6f; xef; x33; x4a; x96; xb8; x64; x1d; xc1; x82; x5e; x27; xfb; xd5; x09; x70; xac; x2c; xf0; x89; x55; x7b; xa7; xde; x02; xc3; x1f; x66; xba; x94; x48; x31; xed; x6d; xb1; xc8; x14; x3a; xe6; x9f; x43; x19; xc5; xbc; x60; x4e; x92; xeb; x37; xb7; x6b; x12; xce; xe0; x3c; x45; x99; x58; x84; xfd; x21; x0f; xd3; xaa; x76; xf6; x2a; x53; x8f; xa1; x7d; x04; xd8; x9b; x47; x3e; xe2; xcc; x10; x69; xb5; x35; xe9; x90; x4c; x62; xbe; xc7; x1b; xda; x06; x7f; xa3; x8d; x51; x28; xf4; x74; xa8; xd1; x0d; x23; xff; x86; x5a; x32; xee; x97; x4b; x65; xb9; xc0; x1c; x9c; x40; x39; xe5; xcb; x17; x6e; xb2; x73; xaf; xd6; x0a; x24; xf8; x81; x5d; xdd; x01; x78; xa4; x8a; x56; x2f; xf3; xb0; x6c; x15; xc9; xe7; x3b; x42; x9e; x1e; xc2; xbb; x67; x49; x95; xec; x30; xf1; x2d; x54; x88; xa6; x7a; x03; xdf; x5f; x83; xfa; x26; x08; xd4; xad; x71; x2b; xf7; x8e; x52; x7c; xa0; xd9; x05; x85; x59; x20; xfc; xd2; x0e; x77; xab; x6a; xb6; xcf; x13; x3d; xe1; x98; x44; xc4; x18; x61; xbd; x93; x4f; x36; xea; xa9; x75; x0c; xd0; xfe; x22; x5b; x87; x07; xdb; xa2; x7e; x50; x8c; xf5; x29; xe8; x34; x4d; x91; xbf; x63; x1a; xc6; x46; x9a; xe3; x3f; x11; xcd; xb4; x68];
   [x00; xdd; xa7; x7a; x53; x8e; xf4; x29; xa6; x7b; x01; xdc; xf5; x28; x52; x8f; x51; x8c; xf6; x2b; x02; xdf; xa5; x78; xf7; x2a; x50; x8d; xa4; x79; x03; xde; xa2; x7f; x05; xd8; xf1; x2c; x56; x8b; x04; xd9; xa3; x7e; x57; x8a; xf0; x2d; xf3; x2e; x54; x89; xa0; x7d; x07; xda; x55; x88; xf2; x2f; x06; xdb; xa1; x7c; x59; x84; xfe; x23; x0a; xd7; xad; x70; xff; x22; x58; x85; xac; x71; x0b; xd6; x08; xd5; xaf; x72; x5b; x86; xfc; x21; xae; x73; x09; xd4; xfd; x20; x5a; x87; xfb; x26; x5c; x81; xa8; x75; x0f; xd2; x5d; x80; xfa; x27; x0e; xd3; xa9; x74; xaa; x77; x0d; xd0; xf9; x24; x5e; x83; x0c; xd1; xab; x76; x5f; x82; xf8; x25; xb2; x6f; x15; xc8; xe1; x3c; x46; x9b; x14; xc9; xb3; x6e; x47; x9a; xe0; x3d; xe3; x3e; x44; x99; xb0; x6d; x17; xca; x45; x98; xe2; x3f; x16; xcb; xb1; x6c; x10; xcd; xb7; x6a; x43; x9e; xe4; x39; xb6; x6b; x11; xcc; xe5; x38; x42; x9f; x41; x9c; xe6; x3b; x12; xcf; xb5; x68; xe7; x3a; x40; x9d; xb4; x69; x13; xce; xeb; x36; x4c; x91; xb8; x65; x1f; xc2; x4d; x90; xea; x37; x1e; xc3; xb9; x64; xba; x67; x1d; xc0; xe9; x34; x4e; x93; x1c; xc1; xbb; x66; x4f; x92; xe8; x35; x49; x94; xee; x33; x1a; xc7; xbd; x60; xef; x32; x48; x95; xbc; x61; x1b; xc6; x18; xc5; xbf; x62; x4b; x96; xec; x31; xbe; x63; x19; xc4; xed; x30; x4a; x97];
   [x00; xde; xa1; x7f; x5f; x81; xfe; x20; xbe; x60; x1f; xc1; xe1; x3f; x40; x9e; x61; xbf; xc0; x1e; x3e; xe0; x9f; x41; xdf; x01; x7e; xa0; x80; x5e; x21; xff; xc2; x1c; x63; xbd; x9d; x43; x3c; xe2; x7c; xa2; xdd; x03; x23; xfd; x82; x5c; xa3; x7d; x02; xdc; xfc; x22; x5d; x83; x1d; xc3; xbc; x62; x42; x9c; xe3; x3d; x99; x47; x38; xe6; xc6; x18; x67; xb9; x27; xf9; x86; x58; x78; xa6; xd9; x07; xf8; x26; x59; x87; xa7; x79; x06; xd8; x46; x98; xe7; x39; x19; xc7; xb8; x66; x5b; x85; xfa; x24; x04; xda; xa5; x7b; xe5; x3b; x44; x9a; xba; x64; x1b; xc5; x3a; xe4; x9b; x45; x65; xbb; xc4; x1a; x84; x5a; x25; xfb; xdb; x05; x7a; xa4; x2f; xf1; x8e; x50; x70; xae; xd1; x0f; x91; x4f; x30; xee; xce; x10; x6f; xb1; x4e; x90; xef; x31; x11; xcf; xb0; x6e; xf0; x2e; x51; x8f; xaf; x71; x0e; xd0; xed; x33; x4c; x92; xb2; x6c; x13; xcd; x53; x8d; xf2; x2c; x0c; xd2; xad; x73; x8c; x52; x2d; xf3; xd3; x0d; x72; xac; x32; xec; x93; x4d; x6d; xb3; xcc; x12; xb6; x68; x17; xc9; xe9; x37; x48; x96; x08; xd6; xa9; x77; x57; x89; xf6; x28; xd7; x09; x76; xa8; x88; x56; x29; xf7; x69; xb7; xc8; x16; x36; xe8; x97; x49; x74; xaa; xd5; x0b; x2b; xf5; x8a; x54; xca; x14; x6b; xb5; x95; x4b; x34; xea; x15; xcb; xb4; x6a; x4a; x94; xeb; x35; xab; x75; x0a; xd4; xf4; x2a; x55; x8b];
   [x00; xdf; xa3; x7c; x5b; x84; xf8; x27; xb6; x69; x15; xca; xed; x32; x4e; x91; x71; xae; xd2; x0d; x2a; xf5; x89; x56; xc7; x18; x64; xbb; x9c; x43; x3f; xe0; xe2; x3d; x41; x9e; xb9; x66; x1a; xc5; x54; x8b; xf7; x28; x0f; xd0; xac; x73; x93; x4c; x30; xef; xc8; x17; x6b; xb4; x25; xfa; x86; x59; x7e; xa1; xdd; x02; xd9; x06; x7a; xa5; x82; x5d; x21; xfe; x6f; xb0; xcc; x13; x34; xeb; x97; x48; xa8; x77; x0b; xd4; xf3; x2c; x50; x8f; x1e; xc1; xbd; x62; x45; x9a; xe6; x39; x3b; xe4; x98; x47; x60; xbf; xc3; x1c; x8d; x52; x2e; xf1; xd6; x09; x75; xaa; x4a; x95; xe9; x36; x11; xce; xb2; x6d; xfc; x23; x5f; x80; xa7; x78; x04; xdb; xaf; x70; x0c; xd3; xf4; x2b; x57; x88; x19; xc6; xba; x65; x42; x9d; xe1; x3e; xde; x01; x7d; xa2; x85; x5a; x26; xf9; x68; xb7; xcb; x14; x33; xec; x90; x4f; x4d; x92; xee; x31; x16; xc9; xb5; x6a; xfb; x24; x58; x87; xa0; x7f; x03; xdc; x3c; xe3; x9f; x40; x67; xb8; xc4; x1b; x8a; x55; x29; xf6; xd1; x0e; x72; xad; x76; xa9; xd5; x0a; x2d; xf2; x8e; x51; xc0; x1f; x63; xbc; x9b; x44; x38; xe7; x07; xd8; xa4; x7b; x5c; x83; xff; x20; xb1; x6e; x12; xcd; xea; x35; x49; x96; x94; x4b; x37; xe8; xcf; x10; x6c; xb3; x22; xfd; x81; x5e; x79; xa6; xda; x05; xe5; x3a; x46; x99; xbe; x61; x1d; xc2; x53; x8c; xf0; x2f; x08; xd7; xab; x74];
   [x00; xe0; xdd; x3d; xa7; x47; x7a; x9a; x53; xb3; x8e; x6e; xf4; x14; x29; xc9; xa6; x46; x7b; x9b; x01; xe1; xdc; x3c; xf5; x15; x28; xc8; x52; xb2; x8f; x6f; x51; xb1; x8c; x6c; xf6; x16; x2b; xcb; x02; xe2; xdf; x3f; xa5; x45; x78; x98; xf7; x17; x2a; xca; x50; xb0; x8d; x6d; xa4; x44; x79; x99; x03; xe3; xde; x3e; xa2; x42; x7f; x9f; x05; xe5; xd8; x38; xf1; x11; x2c; xcc; x56; xb6; x8b; x6b; x04; xe4; xd9; x39; xa3; x43; x7e; x9e; x57; xb7; x8a; x6a; xf0; x10; x2d; xcd; xf3; x13; x2e; xce; x54; xb4; x89; x69; xa0; x40; x7d; x9d; x07; xe7; xda; x3a; x55; xb5; x88; x68; xf2; x12; x2f; xcf; x06; xe6; xdb; x3b; xa1; x41; x7c; x9c; x59; xb9; x84; x64; xfe; x1e; x23; xc3; x0a; xea; xd7; x37; xad; x4d; x70; x90; xff; x1f; x22; xc2; x58; xb8; x85; x65; xac; x4c; x71; x91; x0b; xeb; xd6; x36; x08; xe8; xd5; x35; xaf; x4f; x72; x92; x5b; xbb; x86; x66; xfc; x1c; x21; xc1; xae; x4e; x73; x93; x09; xe9; xd4; x34; xfd; x1d; x20; xc0; x5a; xba; x87; x67; xfb; x1b; x26; xc6; x5c; xbc; x81; x61; xa8; x48; x75; x95; x0f; xef; xd2; x32; x5d; xbd; x80; x60; xfa; x1a; x27; xc7; x0e; xee; xd3; x33; xa9; x49; x74; x94; xaa; x4a; x77; x97; x0d; xed; xd0; x30; xf9; x19; x24; xc4; x5e; xbe; x83; x63; x0c; xec; xd1; x31; xab; x4b; x76; x96; x5f; xbf; x82; x62; xf8; x18; x25; xc5];
   [x00; xe1; xdf; x3e; xa3; x42; x7c; x9d; x5b; xba; x84; x65; xf8; x19; x27; xc6; xb6; x57; x69; x88; x15; xf4; xca; x2b; xed; x0c; x32; xd3; x4e; xaf; x91; x70; x71; x90; xae; x4f; xd2; x33; x0d; xec; x2a; xcb; xf5; x14; x89; x68; x56; xb7; xc7; x26; x18; xf9; x64; x85; xbb; x5a; x9c; x7d; x43; xa2; x3f; xde; xe0; x01; xe2; x03; x3d; xdc; x41; xa0; x9e; x7f; xb9; x58; x66; x87; x1a; xfb; xc5; x24; x54; xb5; x8b; x6a; xf7; x16; x28; xc9; x0f; xee; xd0; x31; xac; x4d; x73; x92; x93; x72; x4c; xad; x30; xd1; xef; x0e; xc8; x29; x17; xf6; x6b; x8a; xb4; x55; x25; xc4; xfa; x1b; x86; x67; x59; xb8; x7e; x9f; xa1; x40; xdd; x3c; x02; xe3; xd9; x38; x06; xe7; x7a; x9b; xa5; x44; x82; x63; x5d; xbc; x21; xc0; xfe; x1f; x6f; x8e; xb0; x51; xcc; x2d; x13; xf2; x34; xd5; xeb; x0a; x97; x76; x48; xa9; xa8; x49; x77; x96; x0b; xea; xd4; x35; xf3; x12; x2c; xcd; x50; xb1; x8f; x6e; x1e; xff; xc1; x20; xbd; x5c; x62; x83; x45; xa4; x9a; x7b; xe6; x07; x39; xd8; x3b; xda; xe4; x05; x98; x79; x47; xa6; x60; x81; xbf; x5e; xc3; x22; x1c; xfd; x8d; x6c; x52; xb3; x2e; xcf; xf1; x10; xd6; x37; x09; xe8; x75; x94; xaa; x4b; x4a; xab; x95; x74; xe9; x08; x36; xd7; x11; xf0; xce; x2f; xb2; x53; x6d; x8c; xfc; x1d; x23; xc2; x5f; xbe; x80; x61; xa7; x46; x78; x99; x04; xe5; xdb; x3a];
   [x00; xe2; xd9; x3b; xaf; x4d; x76; x94; x43; xa1; x9a; x78; xec; x0e; x35; xd7; x86; x64; x5f; xbd; x29; xcb; xf0; x12; xc5; x27; x1c; xfe; x6a; x88; xb3; x51; x11; xf3; xc8; x2a; xbe; x5c; x67; x85; x52; xb0; x8b; x69; xfd; x1f; x24; xc6; x97; x75; x4e; xac; x38; xda; xe1; x03; xd4; x36; x0d; xef; x7b; x99; xa2; x40; x22; xc0; xfb; x19; x8d; x6f; x54; xb6; x61; x83; xb8; x5a; xce; x2c; x17; xf5; xa4; x46; x7d; x9f; x0b; xe9; xd2; x30; xe7; x05; x3e; xdc; x48; xaa; x91; x73; x33; xd1; xea; x08; x9c; x7e; x45; xa7; x70; x92; xa9; x4b; xdf; x3d; x06; xe4; xb5; x57; x6c; x8e; x1a; xf8; xc3; x21; xf6; x14; x2f; xcd; x59; xbb; x80; x62; x44; xa6; x9d; x7f; xeb; x09; x32; xd0; x07; xe5; xde; x3c; xa8; x4a; x71; x93; xc2; x20; x1b; xf9; x6d; x8f; xb4; x56; x81; x63; x58; xba; x2e; xcc; xf7; x15; x55; xb7; x8c; x6e; xfa; x18; x23; xc1; x16; xf4; xcf; x2d; xb9; x5b; x60; x82; xd3; x31; x0a; xe8; x7c; x9e; xa5; x47; x90; x72; x49; xab; x3f; xdd; xe6; x04; x66; x84; xbf; x5d; xc9; x2b; x10; xf2; x25; xc7; xfc; x1e; x8a; x68; x53; xb1; xe0; x02; x39; xdb; x4f; xad; x96; x74; xa3; x41; x7a; x98; x0c; xee; xd5; x37; x77; x95; xae; x4c; xd8; x3a; x01; xe3; x34; xd6; xed; x0f; x9b; x79; x42; xa0; xf1; x13; x28; xca; x5e; xbc; x87; x65; xb2; x50; x6b; x89; x1d; xff; xc4; x26];
   [x00; xe3; xdb; x38; xab; x48; x70; x93; x4b; xa8; x90; x73; xe0; x03; x3b; xd8; x96; x75; x4d; xae; x3d; xde; xe6; x05; xdd; x3e; x06; xe5; x76; x95; xad; x4e; x31; xd2; xea; x09; x9a; x79; x41; xa2; x7a; x99; xa1; x42; xd1; x32; x0a; xe9; xa7; x44; x7c; x9f; x0c; xef; xd7; x34; xec; x0f; x37; xd4; x47; xa4; x9c; x7f; x62; x81; xb9; x5a; xc9; x2a; x12; xf1; x29; xca; xf2; x11; x82; x61; x59; xba; xf4; x17; x2f; xcc; x5f; xbc; x84; x67; xbf; x5c; x64; x87; x14; xf7; xcf; x2c; x53; xb0; x88; x6b; xf8; x1b; x23; xc0; x18; xfb; xc3; x20; xb3; x50; x68; x8b; xc5; x26; x1e; xfd; x6e; x8d; xb5; x56; x8e; x6d; x55; xb6; x25; xc6; xfe; x1d; xc4; x27; x1f; xfc; x6f; x8c; xb4; x57; x8f; x6c; x54; xb7; x24; xc7; xff; x1c; x52; xb1; x89; x6a; xf9; x1a; x22; xc1; x19; xfa; xc2; x21; xb2; x51; x69; x8a; xf5; x16; x2e; xcd; x5e; xbd; x85; x66; xbe; x5d; x65; x86; x15; xf6; xce; x2d; x63; x80; xb8; x5b; xc8; x2b; x13; xf0; x28; xcb; xf3; x10; x83; x60; x58; xbb; xa6; x45; x7d; x9e; x0d; xee; xd6; x35; xed; x0e; x36; xd5; x46; xa5; x9d; x7e; x30; xd3; xeb; x08; x9b; x78; x40; xa3; x7b; x98; xa0; x43; xd0; x33; x0b; xe8; x97; x74; x4c; xaf; x3c; xdf; xe7; x04; xdc; x3f; x07; xe4; x77; x94; xac; x4f; x01; xe2; xda; x39; xaa; x49; x71; x92; x4a; xa9; x91; x72; xe1; x02; x3a; xd9];
   [x00; xe4; xd5; x31; xb7; x53; x62; x86; x73; x97; xa6; x42; xc4; x20; x11; xf5; xe6; x02; x33; xd7; x51; xb5; x84; x60; x95; x71; x40; xa4; x22; xc6; xf7; x13; xd1; x35; x04; xe0; x66; x82; xb3; x57; xa2; x46; x77; x93; x15; xf1; xc0; x24; x37; xd3; xe2; x06; x80; x64; x55; xb1; x44; xa0; x91; x75; xf3; x17; x26; xc2; xbf; x5b; x6a; x8e; x08; xec; xdd; x39; xcc; x28; x19; xfd; x7b; x9f; xae; x4a; x59; xbd; x8c; x68; xee; x0a; x3b; xdf; x2a; xce; xff; x1b; x9d; x79; x48; xac; x6e; x8a; xbb; x5f; xd9; x3d; x0c; xe8; x1d; xf9; xc8; x2c; xaa; x4e; x7f; x9b; x88; x6c; x5d; xb9; x3f; xdb; xea; x0e; xfb; x1f; x2e; xca; x4c; xa8; x99; x7d; x63; x87; xb6; x52; xd4; x30; x01; xe5; x10; xf4; xc5; x21; xa7; x43; x72; x96; x85; x61; x50; xb4; x32; xd6; xe7; x03; xf6; x12; x23; xc7; x41; xa5; x94; x70; xb2; x56; x67; x83; x05; xe1; xd0; x34; xc1; x25; x14; xf0; x76; x92; xa3; x47; x54; xb0; x81; x65; xe3; x07; x36; xd2; x27; xc3; xf2; x16; x90; x74; x45; xa1; xdc; x38; x09; xed; x6b; x8f; xbe; x5a; xaf; x4b; x7a; x9e; x18; xfc; xcd; x29; x3a; xde; xef; x0b; x8d; x69; x58; xbc; x49; xad; x9c; x78; xfe; x1a; x2b; xcf; x0d; xe9; xd8; x3c; xba; x5e; x6f; x8b; x7e; x9a; xab; x4f; xc9; x2d; x1c; xf8; xeb; x0f; x3e; xda; x5c; xb8; x89; x6d; x98; x7c; x4d; xa9; x2f; xcb; xfa; x1e];
   [x00; xe5; xd7; x32; xb3; x56; x64; x81; x7b; x9e; xac; x49; xc8; x2d; x1f; xfa; xf6; x13; x21; xc4; x45; xa0; x92; x77; x8d; x68; x5a; xbf; x3e; xdb; xe9; x0c; xf1; x14; x26; xc3; x42; xa7; x95; x70; x8a; x6f; x5d; xb8; x39; xdc; xee; x0b; x07; xe2; xd0; x35; xb4; x51; x63; x86; x7c; x99; xab; x4e; xcf; x2a; x18; xfd; xff; x1a; x28; xcd; x4c; xa9; x9b; x7e; x84; x61; x53; xb6; x37; xd2; xe0; x05; x09; xec; xde; x3b; xba; x5f; x6d; x88; x72; x97; xa5; x40; xc1; x24; x16; xf3; x0e; xeb; xd9; x3c; xbd; x58; x6a; x8f; x75; x90; xa2; x47; xc6; x23; x11; xf4; xf8; x1d; x2f; xca; x4b; xae; x9c; x79; x83; x66; x54; xb1; x30; xd5; xe7; x02; xe3; x06; x34; xd1; x50; xb5; x87; x62; x98; x7d; x4f; xaa; x2b; xce; xfc; x19; x15; xf0; xc2; x27; xa6; x43; x71; x94; x6e; x8b; xb9; x5c; xdd; x38; x0a; xef; x12; xf7; xc5; x20; xa1; x44; x76; x93; x69; x8c; xbe; x5b; xda; x3f; x0d; xe8; xe4; x01; x33; xd6; x57; xb2; x80; x65; x9f; x7a; x48; xad; x2c; xc9; xfb; x1e; x1c; xf9; xcb; x2e; xaf; x4a; x78; x9d; x67; x82; xb0; x55; xd4; x31; x03; xe6; xea; x0f; x3d; xd8; x59; xbc; x8e; x6b; x91; x74; x46; xa3; x22; xc7; xf5; x10; xed; x08; x3a; xdf; x5e; xbb; x89; x6c; x96; x73; x41; xa4; x25; xc0; xf2; x17; x1b; xfe; xcc; x29; xa8; x4d; x7f; x9a; x60; x85; xb7; x52; xd3; x36; x04; xe1];
   [x00; xe6; xd1; x37; xbf; x59; x6e; x88; x63; x85; xb2; x54; xdc; x3a; x0d; xeb; xc6; x20; x17; xf1; x79; x9f; xa8; x4e; xa5; x43; x74; x92; x1a; xfc; xcb; x2d; x91; x77; x40; xa6; x2e; xc8; xff; x19; xf2; x14; x23; xc5; x4d; xab; x9c; x7a; x57; xb1; x86; x60; xe8; x0e; x39; xdf; x34; xd2; xe5; x03; x8b; x6d; x5a; xbc; x3f; xd9; xee; x08; x80; x66; x51; xb7; x5c; xba; x8d; x6b; xe3; x05; x32; xd4; xf9; x1f; x28; xce; x46; xa0; x97; x71; x9a; x7c; x4b; xad; x25; xc3; xf4; x12; xae; x48; x7f; x99; x11; xf7; xc0; x26; xcd; x2b; x1c; xfa; x72; x94; xa3; x45; x68; x8e; xb9; x5f; xd7; x31; x06; xe0; x0b; xed; xda; x3c; xb4; x52; x65; x83; x7e; x98; xaf; x49; xc1; x27; x10; xf6; x1d; xfb; xcc; x2a; xa2; x44; x73; x95; xb8; x5e; x69; x8f; x07; xe1; xd6; x30; xdb; x3d; x0a; xec; x64; x82; xb5; x53; xef; x09; x3e; xd8; x50; xb6; x81; x67; x8c; x6a; x5d; xbb; x33; xd5; xe2; x04; x29; xcf; xf8; x1e; x96; x70; x47; xa1; x4a; xac; x9b; x7d; xf5; x13; x24; xc2; x41; xa7; x90; x76; xfe; x18; x2f; xc9; x22; xc4; xf3; x15; x9d; x7b; x4c; xaa; x87; x61; x56; xb0; x38; xde; xe9; x0f; xe4; x02; x35; xd3; x5b; xbd; x8a; x6c; xd0; x36; x01; xe7; x6f; x89; xbe; x58; xb3; x55; x62; x84; x0c; xea; xdd; x3b; x16; xf0; xc7; x21; xa9; x4f; x78; x9e; x75; x93; xa4; x42; xca; x2c; x1b; xfd];
   [x00; xe7; xd3; x34; xbb; x5c; x68; x8f; x6b; x8c; xb8; x5f; xd0; x37; x03; xe4; xd6; x31; x05; xe2; x6d; x8a; xbe; x59; xbd; x5a; x6e; x89; x06; xe1; xd5; x32; xb1; x56; x62; x85; x0a; xed; xd9; x3e; xda; x3d; x09; xee; x61; x86; xb2; x55; x67; x80; xb4; x53; xdc; x3b; x0f; xe8; x0c; xeb; xdf; x38; xb7; x50; x64; x83; x7f; x98; xac; x4b; xc4; x23; x17; xf0; x14; xf3; xc7; x20; xaf; x48; x7c; x9b; xa9; x4e; x7a; x9d; x12; xf5; xc1; x26; xc2; x25; x11; xf6; x79; x9e; xaa; x4d; xce; x29; x1d; xfa; x75; x92; xa6; x41; xa5; x42; x76; x91; x1e; xf9; xcd; x2a; x18; xff; xcb; x2c; xa3; x44; x70; x97; x73; x94; xa0; x47; xc8; x2f; x1b; xfc; xfe; x19; x2d; xca; x45; xa2; x96; x71; x95; x72; x46; xa1; x2e; xc9; xfd; x1a; x28; xcf; xfb; x1c; x93; x74; x40; xa7; x43; xa4; x90; x77; xf8; x1f; x2b; xcc; x4f; xa8; x9c; x7b; xf4; x13; x27; xc0; x24; xc3; xf7; x10; x9f; x78; x4c; xab; x99; x7e; x4a; xad; x22; xc5; xf1; x16; xf2; x15; x21; xc6; x49; xae; x9a; x7d; x81; x66; x52; xb5; x3a; xdd; xe9; x0e; xea; x0d; x39; xde; x51; xb6; x82; x65; x57; xb0; x84; x63; xec; x0b; x3f; xd8; x3c; xdb; xef; x08; x87; x60; x54; xb3; x30; xd7; xe3; x04; x8b; x6c; x58; xbf; x5b; xbc; x88; x6f; xe0; x07; x33; xd4; xe6; x01; x35; xd2; x5d; xba; x8e; x69; x8d; x6a; x5e; xb9; x36; xd1; xe5; x02];
   [x00; xe8; xcd; x25; x87; x6f; x4a; xa2; x13; xfb; xde; x36; x94; x7c; x59; xb1; x26; xce; xeb; x03; xa1; x49; x6c; x84; x35; xdd; xf8; x10; xb2; x5a; x7f; x97; x4c; xa4; x81; x69; xcb; x23; x06; xee; x5f; xb7; x92; x7a; xd8; x30; x15; xfd; x6a; x82; xa7; x4f; xed; x05; x20; xc8; x79; x91; xb4; x5c; xfe; x16; x33; xdb; x98; x70; x55; xbd; x1f; xf7; xd2; x3a; x8b; x63; x46; xae; x0c; xe4; xc1; x29; xbe; x56; x73; x9b; x39; xd1; xf4; x1c; xad; x45; x60; x88; x2a; xc2; xe7; x0f; xd4; x3c; x19; xf1; x53; xbb; x9e; x76; xc7; x2f; x0a; xe2; x40; xa8; x8d; x65; xf2; x1a; x3f; xd7; x75; x9d; xb8; x50; xe1; x09; x2c; xc4; x66; x8e; xab; x43; x2d; xc5; xe0; x08; xaa; x42; x67; x8f; x3e; xd6; xf3; x1b; xb9; x51; x74; x9c; x0b; xe3; xc6; x2e; x8c; x64; x41; xa9; x18; xf0; xd5; x3d; x9f; x77; x52; xba; x61; x89; xac; x44; xe6; x0e; x2b; xc3; x72; x9a; xbf; x57; xf5; x1d; x38; xd0; x47; xaf; x8a; x62; xc0; x28; x0d; xe5; x54; xbc; x99; x71; xd3; x3b; x1e; xf6; xb5; x5d; x78; x90; x32; xda; xff; x17; xa6; x4e; x6b; x83; x21; xc9; xec; x04; x93; x7b; x5e; xb6; x14; xfc; xd9; x31; x80; x68; x4d; xa5; x07; xef; xca; x22; xf9; x11; x34; xdc; x7e; x96; xb3; x5b; xea; x02; x27; xcf; x6d; x85; xa0; x48; xdf; x37; x12; xfa; x58; xb0; x95; x7d; xcc; x24; x01; xe9; x4b; xa3; x86; x6e];
   [x00; xe9; xcf; x26; x83; x6a; x4c; xa5; x1b; xf2; xd4; x3d; x98; x71; x57; xbe; x36; xdf; xf9; x10; xb5; x5c; x7a; x93; x2d; xc4; xe2; x0b; xae; x47; x61; x88; x6c; x85; xa3; x4a; xef; x06; x20; xc9; x77; x9e; xb8; x51; xf4; x1d; x3b; xd2; x5a; xb3; x95; x7c; xd9; x30; x16; xff; x41; xa8; x8e; x67; xc2; x2b; x0d; xe4; xd8; x31; x17; xfe; x5b; xb2; x94; x7d; xc3; x2a; x0c; xe5; x40; xa9; x8f; x66; xee; x07; x21; xc8; x6d; x84; xa2; x4b; xf5; x1c; x3a; xd3; x76; x9f; xb9; x50; xb4; x5d; x7b; x92; x37; xde; xf8; x11; xaf; x46; x60; x89; x2c; xc5; xe3; x0a; x82; x6b; x4d; xa4; x01; xe8; xce; x27; x99; x70; x56; xbf; x1a; xf3; xd5; x3c; xad; x44; x62; x8b; x2e; xc7; xe1; x08; xb6; x5f; x79; x90; x35; xdc; xfa; x13; x9b; x72; x54; xbd; x18; xf1; xd7; x3e; x80; x69; x4f; xa6; x03; xea; xcc; x25; xc1; x28; x0e; xe7; x42; xab; x8d; x64; xda; x33; x15; xfc; x59; xb0; x96; x7f; xf7; x1e; x38; xd1; x74; x9d; xbb; x52; xec; x05; x23; xca; x6f; x86; xa0; x49; x75; x9c; xba; x53; xf6; x1f; x39; xd0; x6e; x87; xa1; x48; xed; x04; x22; xcb; x43; xaa; x8c; x65; xc0; x29; x0f; xe6; x58; xb1; x97; x7e; xdb; x32; x14; xfd; x19; xf0; xd6; x3f; x9a; x73; x55; xbc; x02; xeb; xcd; x24; x81; x68; x4e; xa7; x2f; xc6; xe0; x09; xac; x45; x63; x8a; x34; xdd; xfb; x12; xb7; x5e; x78; x91];
   [x00; xea; xc9; x23; x8f; x65; x46; xac; x03; xe9; xca; x20; x8c; x66; x45; xaf; x06; xec; xcf; x25; x89; x63; x40; xaa; x05; xef; xcc; x26; x8a; x60; x43; xa9; x0c; xe6; xc5; x2f; x83; x69; x4a; xa0; x0f; xe5; xc6; x2c; x80; x6a; x49; xa3; x0a; xe0; xc3; x29; x85; x6f; x4c; xa6; x09; xe3; xc0; x2a; x86; x6c; x4f; xa5; x18; xf2; xd1; x3b; x97; x7d; x5e; xb4; x1b; xf1; xd2; x38; x94; x7e; x5d; xb7; x1e; xf4; xd7; x3d; x91; x7b; x58; xb2; x1d; xf7; xd4; x3e; x92; x78; x5b; xb1; x14; xfe; xdd; x37; x9b; x71; x52; xb8; x17; xfd; xde; x34; x98; x72; x51; xbb; x12; xf8; xdb; x31; x9d; x77; x54; xbe; x11; xfb; xd8; x32; x9e; x74; x57; xbd; x30; xda; xf9; x13; xbf; x55; x76; x9c; x33; xd9; xfa; x10; xbc; x56; x75; x9f; x36; xdc; xff; x15; xb9; x53; x70; x9a; x35; xdf; xfc; x16; xba; x50; x73; x99; x3c; xd6; xf5; x1f; xb3; x59; x7a; x90; x3f; xd5; xf6; x1c; xb0; x5a; x79; x93; x3a; xd0; xf3; x19; xb5; x5f; x7c; x96; x39; xd3; xf0; x1a; xb6; x5c; x7f; x95; x28; xc2; xe1; x0b; xa7; x4d; x6e; x84; x2b; xc1; xe2; x08; xa4; x4e; x6d; x87; x2e; xc4; xe7; x0d; xa1; x4b; x68; x82; x2d; xc7; xe4; x0e; xa2; x48; x6b; x81; x24; xce; xed; x07; xab; x41; x62; x88; x27; xcd; xee; x04; xa8; x42; x61; x8b; x22; xc8; xeb; x01; xad; x47; x64; x8e; x21; xcb; xe8; x02; xae; x44; x67; x8d];
   [x00; xeb; xcb; x20; x8b; x60; x40; xab; x0b; xe0; xc0; x2b; x80; x6b; x4b; xa0; x16; xfd; xdd; x36; x9d; x76; x56; xbd; x1d; xf6; xd6; x3d; x96; x7d; x5d; xb6; x2c; xc7; xe7; x0c; xa7; x4c; x6c; x87; x27; xcc; xec; x07; xac; x47; x67; x8c; x3a; xd1; xf1; x1a; xb1; x5a; x7a; x91; x31; xda; xfa; x11; xba; x51; x71; x9a; x58; xb3; x93; x78; xd3; x38; x18; xf3; x53; xb8; x98; x73; xd8; x33; x13; xf8; x4e; xa5; x85; x6e; xc5; x2e; x0e; xe5; x45; xae; x8e; x65; xce; x25; x05; xee; x74; x9f; xbf; x54; xff; x14; x34; xdf; x7f; x94; xb4; x5f; xf4; x1f; x3f; xd4; x62; x89; xa9; x42; xe9; x02; x22; xc9; x69; x82; xa2; x49; xe2; x09; x29; xc2; xb0; x5b; x7b; x90; x3b; xd0; xf0; x1b; xbb; x50; x70; x9b; x30; xdb; xfb; x10; xa6; x4d; x6d; x86; x2d; xc6; xe6; x0d; xad; x46; x66; x8d; x26; xcd; xed; x06; x9c; x77; x57; xbc; x17; xfc; xdc; x37; x97; x7c; x5c; xb7; x1c; xf7; xd7; x3c; x8a; x61; x41; xaa; x01; xea; xca; x21; x81; x6a; x4a; xa1; x0a; xe1; xc1; x2a; xe8; x03; x23; xc8; x63; x88; xa8; x43; xe3; x08; x28; xc3; x68; x83; xa3; x48; xfe; x15; x35; xde; x75; x9e; xbe; x55; xf5; x1e; x3e; xd5; x7e; x95; xb5; x5e; xc4; x2f; x0f; xe4; x4f; xa4; x84; x6f; xcf; x24; x04; xef; x44; xaf; x8f; x64; xd2; x39; x19; xf2; x59; xb2; x92; x79; xd9; x32; x12; xf9; x52; xb9; x99; x72];
   [x00; xec; xc5; x29; x97; x7b; x52; xbe; x33; xdf; xf6; x1a; xa4; x48; x61; x8d; x66; x8a; xa3; x4f; xf1; x1d; x34; xd8; x55; xb9; x90; x7c; xc2; x2e; x07; xeb; xcc; x20; x09; xe5; x5b; xb7; x9e; x72; xff; x13; x3a; xd6; x68; x84; xad; x41; xaa; x46; x6f; x83; x3d; xd1; xf8; x14; x99; x75; x5c; xb0; x0e; xe2; xcb; x27; x85; x69; x40; xac; x12; xfe; xd7; x3b; xb6; x5a; x73; x9f; x21; xcd; xe4; x08; xe3; x0f; x26; xca; x74; x98; xb1; x5d; xd0; x3c; x15; xf9; x47; xab; x82; x6e; x49; xa5; x8c; x60; xde; x32; x1b; xf7; x7a; x96; xbf; x53; xed; x01; x28; xc4; x2f; xc3; xea; x06; xb8; x54; x7d; x91; x1c; xf0; xd9; x35; x8b; x67; x4e; xa2; x17; xfb; xd2; x3e; x80; x6c; x45; xa9; x24; xc8; xe1; x0d; xb3; x5f; x76; x9a; x71; x9d; xb4; x58; xe6; x0a; x23; xcf; x42; xae; x87; x6b; xd5; x39; x10; xfc; xdb; x37; x1e; xf2; x4c; xa0; x89; x65; xe8; x04; x2d; xc1; x7f; x93; xba; x56; xbd; x51; x78; x94; x2a; xc6; xef; x03; x8e; x62; x4b; xa7; x19; xf5; xdc; x30; x92; x7e; x57; xbb; x05; xe9; xc0; x2c; xa1; x4d; x64; x88; x36; xda; xf3; x1f; xf4; x18; x31; xdd; x63; x8f; xa6; x4a; xc7; x2b; x02; xee; x50; xbc; x95; x79; x5e; xb2; x9b; x77; xc9; x25; x0c; xe0; x6d; x81; xa8; x44; xfa; x16; x3f; xd3; x38; xd4; xfd; x11; xaf; x43; x6a; x86; x0b; xe7; xce; x22; x9c; x70; x59; xb5];
   [x00; xed; xc7; x2a; x93; x7e; x54; xb9; x3b; xd6; xfc; x11; xa8; x45; x6f; x82; x76; x9b; xb1; x5c; xe5; x08; x22; xcf; x4d; xa0; x8a; x67; xde; x33; x19; xf4; xec; x01; x2b; xc6; x7f; x92; xb8; x55; xd7; x3a; x10; xfd; x44; xa9; x83; x6e; x9a; x77; x5d; xb0; x09; xe4; xce; x23; xa1; x4c; x66; x8b; x32; xdf; xf5; x18; xc5; x28; x02; xef; x56; xbb; x91; x7c; xfe; x13; x39; xd4; x6d; x80; xaa; x47; xb3; x5e; x74; x99; x20; xcd; xe7; x0a; x88; x65; x4f; xa2; x1b; xf6; xdc; x31; x29; xc4; xee; x03; xba; x57; x7d; x90; x12; xff; xd5; x38; x81; x6c; x46; xab; x5f; xb2; x98; x75; xcc; x21; x0b; xe6; x64; x89; xa3; x4e; xf7; x1a; x30; xdd; x97; x7a; x50; xbd; x04; xe9; xc3; x2e; xac; x41; x6b; x86; x3f; xd2; xf8; x15; xe1; x0c; x26; xcb; x72; x9f; xb5; x58; xda; x37; x1d; xf0; x49; xa4; x8e; x63; x7b; x96; xbc; x51; xe8; x05; x2f; xc2; x40; xad; x87; x6a; xd3; x3e; x14; xf9; x0d; xe0; xca; x27; x9e; x73; x59; xb4; x36; xdb; xf1; x1c; xa5; x48; x62; x8f; x52; xbf; x95; x78; xc1; x2c; x06; xeb; x69; x84; xae; x43; xfa; x17; x3d; xd0; x24; xc9; xe3; x0e; xb7; x5a; x70; x9d; x1f; xf2; xd8; x35; x8c; x61; x4b; xa6; xbe; x53; x79; x94; x2d; xc0; xea; x07; x85; x68; x42; xaf; x16; xfb; xd1; x3c; xc8; x25; x0f; xe2; x5b; xb6; x9c; x71; xf3; x1e; x34; xd9; x60; x8d; xa7; x4a];
   [x00; xee; xc1; x2f; x9f; x71; x5e; xb0; x23; xcd; xe2; x0c; xbc; x52; x7d; x93; x46; xa8; x87; x69; xd9; x37; x18; xf6; x65; x8b; xa4; x4a; xfa; x14; x3b; xd5; x8c; x62; x4d; xa3; x13; xfd; xd2; x3c; xaf; x41; x6e; x80; x30; xde; xf1; x1f; xca; x24; x0b; xe5; x55; xbb; x94; x7a; xe9; x07; x28; xc6; x76; x98; xb7; x59; x05; xeb; xc4; x2a; x9a; x74; x5b; xb5; x26; xc8; xe7; x09; xb9; x57; x78; x96; x43; xad; x82; x6c; xdc; x32; x1d; xf3; x60; x8e; xa1; x4f; xff; x11; x3e; xd0; x89; x67; x48; xa6; x16; xf8; xd7; x39; xaa; x44; x6b; x85; x35; xdb; xf4; x1a; xcf; x21; x0e; xe0; x50; xbe; x91; x7f; xec; x02; x2d; xc3; x73; x9d; xb2; x5c; x0a; xe4; xcb; x25; x95; x7b; x54; xba; x29; xc7; xe8; x06; xb6; x58; x77; x99; x4c; xa2; x8d; x63; xd3; x3d; x12; xfc; x6f; x81; xae; x40; xf0; x1e; x31; xdf; x86; x68; x47; xa9; x19; xf7; xd8; x36; xa5; x4b; x64; x8a; x3a; xd4; xfb; x15; xc0; x2e; x01; xef; x5f; xb1; x9e; x70; xe3; x0d; x22; xcc; x7c; x92; xbd; x53; x0f; xe1; xce; x20; x90; x7e; x51; xbf; x2c; xc2; xed; x03; xb3; x5d; x72; x9c; x49; xa7; x88; x66; xd6; x38; x17; xf9; x6a; x84; xab; x45; xf5; x1b; x34; xda; x83; x6d; x42; xac; x1c; xf2; xdd; x33; xa0; x4e; x61; x8f; x3f; xd1; xfe; x10; xc5; x2b; x04; xea; x5a; xb4; x9b; x75; xe6; x08; x27; xc9; x79; x97; xb8; x56];
   [x00; xef; xc3; x2c; x9b; x74; x58; xb7; x2b; xc4; xe8; x07; xb0; x5f; x73; x9c; x56; xb9; x95; x7a; xcd; x22; x0e; xe1; x7d; x92; xbe; x51; xe6; x09; x25; xca; xac; x43; x6f; x80; x37; xd8; xf4; x1b; x87; x68; x44; xab; x1c; xf3; xdf; x30; xfa; x15; x39; xd6; x61; x8e; xa2; x4d; xd1; x3e; x12; xfd; x4a; xa5; x89; x66; x45; xaa; x86; x69; xde; x31; x1d; xf2; x6e; x81; xad; x42; xf5; x1a; x36; xd9; x13; xfc; xd0; x3f; x88; x67; x4b; xa4; x38; xd7; xfb; x14; xa3; x4c; x60; x8f; xe9; x06; x2a; xc5; x72; x9d; xb1; x5e; xc2; x2d; x01; xee; x59; xb6; x9a; x75; xbf; x50; x7c; x93; x24; xcb; xe7; x08; x94; x7b; x57; xb8; x0f; xe0; xcc; x23; x8a; x65; x49; xa6; x11; xfe; xd2; x3d; xa1; x4e; x62; x8d; x3a; xd5; xf9; x16; xdc; x33; x1f; xf0; x47; xa8; x84; x6b; xf7; x18; x34; xdb; x6c; x83; xaf; x40; x26; xc9; xe5; x0a; xbd; x52; x7e; x91; x0d; xe2; xce; x21; x96; x79; x55; xba; x70; x9f; xb3; x5c; xeb; x04; x28; xc7; x5b; xb4; x98; x77; xc0; x2f; x03; xec; xcf; x20; x0c; xe3; x54; xbb; x97; x78; xe4; x0b; x27; xc8; x7f; x90; xbc; x53; x99; x76; x5a; xb5; x02; xed; xc1; x2e; xb2; x5d; x71; x9e; x29; xc6; xea; x05; x63; x8c; xa0; x4f; xf8; x17; x3b; xd4; x48; xa7; x8b; x64; xd3; x3c; x10; xff; x35; xda; xf6; x19; xae; x41; x6d; x82; x1e; xf1; xdd; x32; x85; x6a; x46; xa9];
   [x00; xf0; xfd; x0d; xe7; x17; x1a; xea; xd3; x23; x2e; xde; x34; xc4; xc9; x39; xbb; x4b; x46; xb6; x5c; xac; xa1; x51; x68; x98; x95; x65; x8f; x7f; x72; x82; x6b; x9b; x96; x66; x8c; x7c; x71; x81; xb8; x48; x45; xb5; x5f; xaf; xa2; x52; xd0; x20; x2d; xdd; x37; xc7; xca; x3a; x03; xf3; xfe; x0e; xe4; x14; x19; xe9; xd6; x26; x2b; xdb; x31; xc1; xcc; x3c; x05; xf5; xf8; x08; xe2; x12; x1f; xef; x6d; x9d; x90; x60; x8a; x7a; x77; x87; xbe; x4e; x43; xb3; x59; xa9; xa4; x54; xbd; x4d; x40; xb0; x5a; xaa; xa7; x57; x6e; x9e; x93; x63; x89; x79; x74; x84; x06; xf6; xfb; x0b; xe1; x11; x1c; xec; xd5; x25; x28; xd8; x32; xc2; xcf; x3f; xb1; x41; x4c; xbc; x56; xa6; xab; x5b; x62; x92; x9f; x6f; x85; x75; x78; x88; x0a; xfa; xf7; x07; xed; x1d; x10; xe0; xd9; x29; x24; xd4; x3e; xce; xc3; x33; xda; x2a; x27; xd7; x3d; xcd; xc0; x30; x09; xf9; xf4; x04; xee; x1e; x13; xe3; x61; x91; x9c; x6c; x86; x76; x7b; x8b; xb2; x42; x4f; xbf; x55; xa5; xa8; x58; x67; x97; x9a; x6a; x80; x70; x7d; x8d; xb4; x44; x49; xb9; x53; xa3; xae; x5e; xdc; x2c; x21; xd1; x3b; xcb; xc6; x36; x0f; xff; xf2; x02; xe8; x18; x15; xe5; x0c; xfc; xf1; x01; xeb; x1b; x16; xe6; xdf; x2f; x22; xd2; x38; xc8; xc5; x35; xb7; x47; x4a; xba; x50; xa0; xad; x5d; x64; x94; x99; x69; x83; x73; x7e; x8e];
   [x00; xf1; xff; x0e; xe3; x12; x1c; xed; xdb; x2a; x24; xd5; x38; xc9; xc7; x36; xab; x5a; x54; xa5; x48; xb9; xb7; x46; x70; x81; x8f; x7e; x93; x62; x6c; x9d; x4b; xba; xb4; x45; xa8; x59; x57; xa6; x90; x61; x6f; x9e; x73; x82; x8c; x7d; xe0; x11; x1f; xee; x03; xf2; xfc; x0d; x3b; xca; xc4; x35; xd8; x29; x27; xd6; x96; x67; x69; x98; x75; x84; x8a; x7b; x4d; xbc; xb2; x43; xae; x5f; x51; xa0; x3d; xcc; xc2; x33; xde; x2f; x21; xd0; xe6; x17; x19; xe8; x05; xf4; xfa; x0b; xdd; x2c; x22; xd3; x3e; xcf; xc1; x30; x06; xf7; xf9; x08; xe5; x14; x1a; xeb; x76; x87; x89; x78; x95; x64; x6a; x9b; xad; x5c; x52; xa3; x4e; xbf; xb1; x40; x31; xc0; xce; x3f; xd2; x23; x2d; xdc; xea; x1b; x15; xe4; x09; xf8; xf6; x07; x9a; x6b; x65; x94; x79; x88; x86; x77; x41; xb0; xbe; x4f; xa2; x53; x5d; xac; x7a; x8b; x85; x74; x99; x68; x66; x97; xa1; x50; x5e; xaf; x42; xb3; xbd; x4c; xd1; x20; x2e; xdf; x32; xc3; xcd; x3c; x0a; xfb; xf5; x04; xe9; x18; x16; xe7; xa7; x56; x58; xa9; x44; xb5; xbb; x4a; x7c; x8d; x83; x72; x9f; x6e; x60; x91; x0c; xfd; xf3; x02; xef; x1e; x10; xe1; xd7; x26; x28; xd9; x34; xc5; xcb; x3a; xec; x1d; x13; xe2; x0f; xfe; xf0; x01; x37; xc6; xc8; x39; xd4; x25; x2b; xda; x47; xb6; xb8; x49; xa4; x55; x5b; xaa; x9c; x6d; x63; x92; x7f; x8e; x80; x71];
   [x00; xf2; xf9; x0b; xef; x1d; x16; xe4; xc3; x31; x3a; xc8; x2c; xde; xd5; x27; x9b; x69; x62; x90; x74; x86; x8d; x7f; x58; xaa; xa1; x53; xb7; x45; x4e; xbc; x2b; xd9; xd2; x20; xc4; x36; x3d; xcf; xe8; x1a; x11; xe3; x07; xf5; xfe; x0c; xb0; x42; x49; xbb; x5f; xad; xa6; x54; x73; x81; x8a; x78; x9c; x6e; x65; x97; x56; xa4; xaf; x5d; xb9; x4b; x40; xb2; x95; x67; x6c; x9e; x7a; x88; x83; x71; xcd; x3f; x34; xc6; x22; xd0; xdb; x29; x0e; xfc; xf7; x05; xe1; x13; x18; xea; x7d; x8f; x84; x76; x92; x60; x6b; x99; xbe; x4c; x47; xb5; x51; xa3; xa8; x5a; xe6; x14; x1f; xed; x09; xfb; xf0; x02; x25; xd7; xdc; x2e; xca; x38; x33; xc1; xac; x5e; x55; xa7; x43; xb1; xba; x48; x6f; x9d; x96; x64; x80; x72; x79; x8b; x37; xc5; xce; x3c; xd8; x2a; x21; xd3; xf4; x06; x0d; xff; x1b; xe9; xe2; x10; x87; x75; x7e; x8c; x68; x9a; x91; x63; x44; xb6; xbd; x4f; xab; x59; x52; xa0; x1c; xee; xe5; x17; xf3; x01; x0a; xf8; xdf; x2d; x26; xd4; x30; xc2; xc9; x3b; xfa; x08; x03; xf1; x15; xe7; xec; x1e; x39; xcb; xc0; x32; xd6; x24; x2f; xdd; x61; x93; x98; x6a; x8e; x7c; x77; x85; xa2; x50; x5b; xa9; x4d; xbf; xb4; x46; xd1; x23; x28; xda; x3e; xcc; xc7; x35; x12; xe0; xeb; x19; xfd; x0f; x04; xf6; x4a; xb8; xb3; x41; xa5; x57; x5c; xae; x89; x7b; x70; x82; x66; x94; x9f; x6d];
   [x00; xf3; xfb; x08; xeb; x18; x10; xe3; xcb; x38; x30; xc3; x20; xd3; xdb; x28; x8b; x78; x70; x83; x60; x93; x9b; x68; x40; xb3; xbb; x48; xab; x58; x50; xa3; x0b; xf8; xf0; x03; xe0; x13; x1b; xe8; xc0; x33; x3b; xc8; x2b; xd8; xd0; x23; x80; x73; x7b; x88; x6b; x98; x90; x63; x4b; xb8; xb0; x43; xa0; x53; x5b; xa8; x16; xe5; xed; x1e; xfd; x0e; x06; xf5; xdd; x2e; x26; xd5; x36; xc5; xcd; x3e; x9d; x6e; x66; x95; x76; x85; x8d; x7e; x56; xa5; xad; x5e; xbd; x4e; x46; xb5; x1d; xee; xe6; x15; xf6; x05; x0d; xfe; xd6; x25; x2d; xde; x3d; xce; xc6; x35; x96; x65; x6d; x9e; x7d; x8e; x86; x75; x5d; xae; xa6; x55; xb6; x45; x4d; xbe; x2c; xdf; xd7; x24; xc7; x34; x3c; xcf; xe7; x14; x1c; xef; x0c; xff; xf7; x04; xa7; x54; x5c; xaf; x4c; xbf; xb7; x44; x6c; x9f; x97; x64; x87; x74; x7c; x8f; x27; xd4; xdc; x2f; xcc; x3f; x37; xc4; xec; x1f; x17; xe4; x07; xf4; xfc; x0f; xac; x5f; x57; xa4; x47; xb4; xbc; x4f; x67; x94; x9c; x6f; x8c; x7f; x77; x84; x3a; xc9; xc1; x32; xd1; x22; x2a; xd9; xf1; x02; x0a; xf9; x1a; xe9; xe1; x12; xb1; x42; x4a; xb9; x5a; xa9; xa1; x52; x7a; x89; x81; x72; x91; x62; x6a; x99; x31; xc2; xca; x39; xda; x29; x21; xd2; xfa; x09; x01; xf2; x11; xe2; xea; x19; xba; x49; x41; xb2; x51; xa2; xaa; x59; x71; x82; x8a; x79; x9a; x69; x61; x92];
   [x00; xf4; xf5; x01; xf7; x03; x02; xf6; xf3; x07; x06; xf2; x04; xf0; xf1; x05; xfb; x0f; x0e; xfa; x0c; xf8; xf9; x0d; x08; xfc; xfd; x09; xff; x0b; x0a; xfe; xeb; x1f; x1e; xea; x1c; xe8; xe9; x1d; x18; xec; xed; x19; xef; x1b; x1a; xee; x10; xe4; xe5; x11; xe7; x13; x12; xe6; xe3; x17; x16; xe2; x14; xe0; xe1; x15; xcb; x3f; x3e; xca; x3c; xc8; xc9; x3d; x38; xcc; xcd; x39; xcf; x3b; x3a; xce; x30; xc4; xc5; x31; xc7; x33; x32; xc6; xc3; x37; x36; xc2; x34; xc0; xc1; x35; x20; xd4; xd5; x21; xd7; x23; x22; xd6; xd3; x27; x26; xd2; x24; xd0; xd1; x25; xdb; x2f; x2e; xda; x2c; xd8; xd9; x2d; x28; xdc; xdd; x29; xdf; x2b; x2a; xde; x8b; x7f; x7e; x8a; x7c; x88; x89; x7d; x78; x8c; x8d; x79; x8f; x7b; x7a; x8e; x70; x84; x85; x71; x87; x73; x72; x86; x83; x77; x76; x82; x74; x80; x81; x75; x60; x94; x95; x61; x97; x63; x62; x96; x93; x67; x66; x92; x64; x90; x91; x65; x9b; x6f; x6e; x9a; x6c; x98; x99; x6d; x68; x9c; x9d; x69; x9f; x6b; x6a; x9e; x40; xb4; xb5; x41; xb7; x43; x42; xb6; xb3; x47; x46; xb2; x44; xb0; xb1; x45; xbb; x4f; x4e; xba; x4c; xb8; xb9; x4d; x48; xbc; xbd; x49; xbf; x4b; x4a; xbe; xab; x5f; x5e; xaa; x5c; xa8; xa9; x5d; x58; xac; xad; x59; xaf; x5b; x5a; xae; x50; xa4; xa5; x51; xa7; x53; x52; xa6; xa3; x57; x56; xa2; x54; xa0; xa1; x55];
   [x00; xf5; xf7; x02; xf3; x06; x04; xf1; xfb; x0e; x0c; xf9; x08; xfd; xff; x0a; xeb; x1e; x1c; xe9; x18; xed; xef; x1a; x10; xe5; xe7; x12; xe3; x16; x14; xe1; xcb; x3e; x3c; xc9; x38; xcd; xcf; x3a; x30; xc5; xc7; x32; xc3; x36; x34; xc1; x20; xd5; xd7; x22; xd3; x26; x24; xd1; xdb; x2e; x2c; xd9; x28; xdd; xdf; x2a; x8b; x7e; x7c; x89; x78; x8d; x8f; x7a; x70; x85; x87; x72; x83; x76; x74; x81; x60; x95; x97; x62; x93; x66; x64; x91; x9b; x6e; x6c; x99; x68; x9d; x9f; x6a; x40; xb5; xb7; x42; xb3; x46; x44; xb1; xbb; x4e; x4c; xb9; x48; xbd; xbf; x4a; xab; x5e; x5c; xa9; x58; xad; xaf; x5a; x50; xa5; xa7; x52; xa3; x56; x54; xa1; x0b; xfe; xfc; x09; xf8; x0d; x0f; xfa; xf0; x05; x07; xf2; x03; xf6; xf4; x01; xe0; x15; x17; xe2; x13; xe6; xe4; x11; x1b; xee; xec; x19; xe8; x1d; x1f; xea; xc0; x35; x37; xc2; x33; xc6; xc4; x31; x3b; xce; xcc; x39; xc8; x3d; x3f; xca; x2b; xde; xdc; x29; xd8; x2d; x2f; xda; xd0; x25; x27; xd2; x23; xd6; xd4; x21; x80; x75; x77; x82; x73; x86; x84; x71; x7b; x8e; x8c; x79; x88; x7d; x7f; x8a; x6b; x9e; x9c; x69; x98; x6d; x6f; x9a; x90; x65; x67; x92; x63; x96; x94; x61; x4b; xbe; xbc; x49; xb8; x4d; x4f; xba; xb0; x45; x47; xb2; x43; xb6; xb4; x41; xa0; x55; x57; xa2; x53; xa6; xa4; x51; x5b; xae; xac; x59; xa8; x5d; x5f; xaa];
   [x00; xf6; xf1; x07; xff; x09; x0e; xf8; xe3; x15; x12; xe4; x1c; xea; xed; x1b; xdb; x2d; x2a; xdc; x24; xd2; xd5; x23; x38; xce; xc9; x3f; xc7; x31; x36; xc0; xab; x5d; x5a; xac; x54; xa2; xa5; x53; x48; xbe; xb9; x4f; xb7; x41; x46; xb0; x70; x86; x81; x77; x8f; x79; x7e; x88; x93; x65; x62; x94; x6c; x9a; x9d; x6b; x4b; xbd; xba; x4c; xb4; x42; x45; xb3; xa8; x5e; x59; xaf; x57; xa1; xa6; x50; x90; x66; x61; x97; x6f; x99; x9e; x68; x73; x85; x82; x74; x8c; x7a; x7d; x8b; xe0; x16; x11; xe7; x1f; xe9; xee; x18; x03; xf5; xf2; x04; xfc; x0a; x0d; xfb; x3b; xcd; xca; x3c; xc4; x32; x35; xc3; xd8; x2e; x29; xdf; x27; xd1; xd6; x20; x96; x60; x67; x91; x69; x9f; x98; x6e; x75; x83; x84; x72; x8a; x7c; x7b; x8d; x4d; xbb; xbc; x4a; xb2; x44; x43; xb5; xae; x58; x5f; xa9; x51; xa7; xa0; x56; x3d; xcb; xcc; x3a; xc2; x34; x33; xc5; xde; x28; x2f; xd9; x21; xd7; xd0; x26; xe6; x10; x17; xe1; x19; xef; xe8; x1e; x05; xf3; xf4; x02; xfa; x0c; x0b; xfd; xdd; x2b; x2c; xda; x22; xd4; xd3; x25; x3e; xc8; xcf; x39; xc1; x37; x30; xc6; x06; xf0; xf7; x01; xf9; x0f; x08; xfe; xe5; x13; x14; xe2; x1a; xec; xeb; x1d; x76; x80; x87; x71; x89; x7f; x78; x8e; x95; x63; x64; x92; x6a; x9c; x9b; x6d; xad; x5b; x5c; xaa; x52; xa4; xa3; x55; x4e; xb8; xbf; x49; xb1; x47; x40; xb6];
   [x00; xf7; xf3; x04; xfb; x0c; x08; xff; xeb; x1c; x18; xef; x10; xe7; xe3; x14; xcb; x3c; x38; xcf; x30; xc7; xc3; x34; x20; xd7; xd3; x24; xdb; x2c; x28; xdf; x8b; x7c; x78; x8f; x70; x87; x83; x74; x60; x97; x93; x64; x9b; x6c; x68; x9f; x40; xb7; xb3; x44; xbb; x4c; x48; xbf; xab; x5c; x58; xaf; x50; xa7; xa3; x54; x0b; xfc; xf8; x0f; xf0; x07; x03; xf4; xe0; x17; x13; xe4; x1b; xec; xe8; x1f; xc0; x37; x33; xc4; x3b; xcc; xc8; x3f; x2b; xdc; xd8; x2f; xd0; x27; x23; xd4; x80; x77; x73; x84; x7b; x8c; x88; x7f; x6b; x9c; x98; x6f; x90; x67; x63; x94; x4b; xbc; xb8; x4f; xb0; x47; x43; xb4; xa0; x57; x53; xa4; x5b; xac; xa8; x5f; x16; xe1; xe5; x12; xed; x1a; x1e; xe9; xfd; x0a; x0e; xf9; x06; xf1; xf5; x02; xdd; x2a; x2e; xd9; x26; xd1; xd5; x22; x36; xc1; xc5; x32; xcd; x3a; x3e; xc9; x9d; x6a; x6e; x99; x66; x91; x95; x62; x76; x81; x85; x72; x8d; x7a; x7e; x89; x56; xa1; xa5; x52; xad; x5a; x5e; xa9; xbd; x4a; x4e; xb9; x46; xb1; xb5; x42; x1d; xea; xee; x19; xe6; x11; x15; xe2; xf6; x01; x05; xf2; x0d; xfa; xfe; x09; xd6; x21; x25; xd2; x2d; xda; xde; x29; x3d; xca; xce; x39; xc6; x31; x35; xc2; x96; x61; x65; x92; x6d; x9a; x9e; x69; x7d; x8a; x8e; x79; x86; x71; x75; x82; x5d; xaa; xae; x59; xa6; x51; x55; xa2; xb6; x41; x45; xb2; x4d; xba; xbe; x49];
   [x00; xf8; xed; x15; xc7; x3f; x2a; xd2; x93; x6b; x7e; x86; x54; xac; xb9; x41; x3b; xc3; xd6; x2e; xfc; x04; x11; xe9; xa8; x50; x45; xbd; x6f; x97; x82; x7a; x76; x8e; x9b; x63; xb1; x49; x5c; xa4; xe5; x1d; x08; xf0; x22; xda; xcf; x37; x4d; xb5; xa0; x58; x8a; x72; x67; x9f; xde; x26; x33; xcb; x19; xe1; xf4; x0c; xec; x14; x01; xf9; x2b; xd3; xc6; x3e; x7f; x87; x92; x6a; xb8; x40; x55; xad; xd7; x2f; x3a; xc2; x10; xe8; xfd; x05; x44; xbc; xa9; x51; x83; x7b; x6e; x96; x9a; x62; x77; x8f; x5d; xa5; xb0; x48; x09; xf1; xe4; x1c; xce; x36; x23; xdb; xa1; x59; x4c; xb4; x66; x9e; x8b; x73; x32; xca; xdf; x27; xf5; x0d; x18; xe0; xc5; x3d; x28; xd0; x02; xfa; xef; x17; x56; xae; xbb; x43; x91; x69; x7c; x84; xfe; x06; x13; xeb; x39; xc1; xd4; x2c; x6d; x95; x80; x78; xaa; x52; x47; xbf; xb3; x4b; x5e; xa6; x74; x8c; x99; x61; x20; xd8; xcd; x35; xe7; x1f; x0a; xf2; x88; x70; x65; x9d; x4f; xb7; xa2; x5a; x1b; xe3; xf6; x0e; xdc; x24; x31; xc9; x29; xd1; xc4; x3c; xee; x16; x03; xfb; xba; x42; x57; xaf; x7d; x85; x90; x68; x12; xea; xff; x07; xd5; x2d; x38; xc0; x81; x79; x6c; x94; x46; xbe; xab; x53; x5f; xa7; xb2; x4a; x98; x60; x75; x8d; xcc; x34; x21; xd9; x0b; xf3; xe6; x1e; x64; x9c; x89; x71; xa3; x5b; x4e; xb6; xf7; x0f; x1a; xe2; x30; xc8; xdd; x25];
   [x00; xf9; xef; x16; xc3; x3a; x2c; xd5; x9b; x62; x74; x8d; x58; xa1; xb7; x4e; x2b; xd2; xc4; x3d; xe8; x11; x07; xfe; xb0; x49; x5f; xa6; x73; x8a; x9c; x65; x56; xaf; xb9; x40; x95; x6c; x7a; x83; xcd; x34; x22; xdb; x0e; xf7; xe1; x18; x7d; x84; x92; x6b; xbe; x47; x51; xa8; xe6; x1f; x09; xf0; x25; xdc; xca; x33; xac; x55; x43; xba; x6f; x96; x80; x79; x37; xce; xd8; x21; xf4; x0d; x1b; xe2; x87; x7e; x68; x91; x44; xbd; xab; x52; x1c; xe5; xf3; x0a; xdf; x26; x30; xc9; xfa; x03; x15; xec; x39; xc0; xd6; x2f; x61; x98; x8e; x77; xa2; x5b; x4d; xb4; xd1; x28; x3e; xc7; x12; xeb; xfd; x04; x4a; xb3; xa5; x5c; x89; x70; x66; x9f; x45; xbc; xaa; x53; x86; x7f; x69; x90; xde; x27; x31; xc8; x1d; xe4; xf2; x0b; x6e; x97; x81; x78; xad; x54; x42; xbb; xf5; x0c; x1a; xe3; x36; xcf; xd9; x20; x13; xea; xfc; x05; xd0; x29; x3f; xc6; x88; x71; x67; x9e; x4b; xb2; xa4; x5d; x38; xc1; xd7; x2e; xfb; x02; x14; xed; xa3; x5a; x4c; xb5; x60; x99; x8f; x76; xe9; x10; x06; xff; x2a; xd3; xc5; x3c; x72; x8b; x9d; x64; xb1; x48; x5e; xa7; xc2; x3b; x2d; xd4; x01; xf8; xee; x17; x59; xa0; xb6; x4f; x9a; x63; x75; x8c; xbf; x46; x50; xa9; x7c; x85; x93; x6a; x24; xdd; xcb; x32; xe7; x1e; x08; xf1; x94; x6d; x7b; x82; x57; xae; xb8; x41; x0f; xf6; xe0; x19; xcc; x35; x23; xda];
   [x00; xfa; xe9; x13; xcf; x35; x26; xdc; x83; x79; x6a; x90; x4c; xb6; xa5; x5f; x1b; xe1; xf2; x08; xd4; x2e; x3d; xc7; x98; x62; x71; x8b; x57; xad; xbe; x44; x36; xcc; xdf; x25; xf9; x03; x10; xea; xb5; x4f; x5c; xa6; x7a; x80; x93; x69; x2d; xd7; xc4; x3e; xe2; x18; x0b; xf1; xae; x54; x47; xbd; x61; x9b; x88; x72; x6c; x96; x85; x7f; xa3; x59; x4a; xb0; xef; x15; x06; xfc; x20; xda; xc9; x33; x77; x8d; x9e; x64; xb8; x42; x51; xab; xf4; x0e; x1d; xe7; x3b; xc1; xd2; x28; x5a; xa0; xb3; x49; x95; x6f; x7c; x86; xd9; x23; x30; xca; x16; xec; xff; x05; x41; xbb; xa8; x52; x8e; x74; x67; x9d; xc2; x38; x2b; xd1; x0d; xf7; xe4; x1e; xd8; x22; x31; xcb; x17; xed; xfe; x04; x5b; xa1; xb2; x48; x94; x6e; x7d; x87; xc3; x39; x2a; xd0; x0c; xf6; xe5; x1f; x40; xba; xa9; x53; x8f; x75; x66; x9c; xee; x14; x07; xfd; x21; xdb; xc8; x32; x6d; x97; x84; x7e; xa2; x58; x4b; xb1; xf5; x0f; x1c; xe6; x3a; xc0; xd3; x29; x76; x8c; x9f; x65; xb9; x43; x50; xaa; xb4; x4e; x5d; xa7; x7b; x81; x92; x68; x37; xcd; xde; x24; xf8; x02; x11; xeb; xaf; x55; x46; xbc; x60; x9a; x89; x73; x2c; xd6; xc5; x3f; xe3; x19; x0a; xf0; x82; x78; x6b; x91; x4d; xb7; xa4; x5e; x01; xfb; xe8; x12; xce; x34; x27; xdd; x99; x63; x70; x8a; x56; xac; xbf; x45; x1a; xe0; xf3; x09; xd5; x2f; x3c; xc6];
   [x00; xfb; xeb; x10; xcb; x30; x20; xdb; x8b; x70; x60; x9b; x40; xbb; xab; x50; x0b; xf0; xe0; x1b; xc0; x3b; x2b; xd0; x80; x7b; x6b; x90; x4b; xb0; xa0; x5b; x16; xed; xfd; x06; xdd; x26; x36; xcd; x9d; x66; x76; x8d; x56; xad; xbd; x46; x1d; xe6; xf6; x0d; xd6; x2d; x3d; xc6; x96; x6d; x7d; x86; x5d; xa6; xb6; x4d; x2c; xd7; xc7; x3c; xe7; x1c; x0c; xf7; xa7; x5c; x4c; xb7; x6c; x97; x87; x7c; x27; xdc; xcc; x37; xec; x17; x07; xfc; xac; x57; x47; xbc; x67; x9c; x8c; x77; x3a; xc1; xd1; x2a; xf1; x0a; x1a; xe1; xb1; x4a; x5a; xa1; x7a; x81; x91; x6a; x31; xca; xda; x21; xfa; x01; x11; xea; xba; x41; x51; xaa; x71; x8a; x9a; x61; x58; xa3; xb3; x48; x93; x68; x78; x83; xd3; x28; x38; xc3; x18; xe3; xf3; x08; x53; xa8; xb8; x43; x98; x63; x73; x88; xd8; x23; x33; xc8; x13; xe8; xf8; x03; x4e; xb5; xa5; x5e; x85; x7e; x6e; x95; xc5; x3e; x2e; xd5; x0e; xf5; xe5; x1e; x45; xbe; xae; x55; x8e; x75; x65; x9e; xce; x35; x25; xde; x05; xfe; xee; x15; x74; x8f; x9f; x64; xbf; x44; x54; xaf; xff; x04; x14; xef; x34; xcf; xdf; x24; x7f; x84; x94; x6f; xb4; x4f; x5f; xa4; xf4; x0f; x1f; xe4; x3f; xc4; xd4; x2f; x62; x99; x89; x72; xa9; x52; x42; xb9; xe9; x12; x02; xf9; x22; xd9; xc9; x32; x69; x92; x82; x79; xa2; x59; x49; xb2; xe2; x19; x09; xf2; x29; xd2; xc2; x39];
   [x00; xfc; xe5; x19; xd7; x2b; x32; xce; xb3; x4f; x56; xaa; x64; x98; x81; x7d; x7b; x87; x9e; x62; xac; x50; x49; xb5; xc8; x34; x2d; xd1; x1f; xe3; xfa; x06; xf6; x0a; x13; xef; x21; xdd; xc4; x38; x45; xb9; xa0; x5c; x92; x6e; x77; x8b; x8d; x71; x68; x94; x5a; xa6; xbf; x43; x3e; xc2; xdb; x27; xe9; x15; x0c; xf0; xf1; x0d; x14; xe8; x26; xda; xc3; x3f; x42; xbe; xa7; x5b; x95; x69; x70; x8c; x8a; x76; x6f; x93; x5d; xa1; xb8; x44; x39; xc5; xdc; x20; xee; x12; x0b; xf7; x07; xfb; xe2; x1e; xd0; x2c; x35; xc9; xb4; x48; x51; xad; x63; x9f; x86; x7a; x7c; x80; x99; x65; xab; x57; x4e; xb2; xcf; x33; x2a; xd6; x18; xe4; xfd; x01; xff; x03; x1a; xe6; x28; xd4; xcd; x31; x4c; xb0; xa9; x55; x9b; x67; x7e; x82; x84; x78; x61; x9d; x53; xaf; xb6; x4a; x37; xcb; xd2; x2e; xe0; x1c; x05; xf9; x09; xf5; xec; x10; xde; x22; x3b; xc7; xba; x46; x5f; xa3; x6d; x91; x88; x74; x72; x8e; x97; x6b; xa5; x59; x40; xbc; xc1; x3d; x24; xd8; x16; xea; xf3; x0f; x0e; xf2; xeb; x17; xd9; x25; x3c; xc0; xbd; x41; x58; xa4; x6a; x96; x8f; x73; x75; x89; x90; x6c; xa2; x5e; x47; xbb; xc6; x3a; x23; xdf; x11; xed; xf4; x08; xf8; x04; x1d; xe1; x2f; xd3; xca; x36; x4b; xb7; xae; x52; x9c; x60; x79; x85; x83; x7f; x66; x9a; x54; xa8; xb1; x4d; x30; xcc; xd5; x29; xe7; x1b; x02; xfe];
   [x00; xfd; xe7; x1a; xd3; x2e; x34; xc9; xbb; x46; x5c; xa1; x68; x95; x8f; x72; x6b; x96; x8c; x71; xb8; x45; x5f; xa2; xd0; x2d; x37; xca; x03; xfe; xe4; x19; xd6; x2b; x31; xcc; x05; xf8; xe2; x1f; x6d; x90; x8a; x77; xbe; x43; x59; xa4; xbd; x40; x5a; xa7; x6e; x93; x89; x74; x06; xfb; xe1; x1c; xd5; x28; x32; xcf; xb1; x4c; x56; xab; x62; x9f; x85; x78; x0a; xf7; xed; x10; xd9; x24; x3e; xc3; xda; x27; x3d; xc0; x09; xf4; xee; x13; x61; x9c; x86; x7b; xb2; x4f; x55; xa8; x67; x9a; x80; x7d; xb4; x49; x53; xae; xdc; x21; x3b; xc6; x0f; xf2; xe8; x15; x0c; xf1; xeb; x16; xdf; x22; x38; xc5; xb7; x4a; x50; xad; x64; x99; x83; x7e; x7f; x82; x98; x65; xac; x51; x4b; xb6; xc4; x39; x23; xde; x17; xea; xf0; x0d; x14; xe9; xf3; x0e; xc7; x3a; x20; xdd; xaf; x52; x48; xb5; x7c; x81; x9b; x66; xa9; x54; x4e; xb3; x7a; x87; x9d; x60; x12; xef; xf5; x08; xc1; x3c; x26; xdb; xc2; x3f; x25; xd8; x11; xec; xf6; x0b; x79; x84; x9e; x63; xaa; x57; x4d; xb0; xce; x33; x29; xd4; x1d; xe0; xfa; x07; x75; x88; x92; x6f; xa6; x5b; x41; xbc; xa5; x58; x42; xbf; x76; x8b; x91; x6c; x1e; xe3; xf9; x04; xcd; x30; x2a; xd7; x18; xe5; xff; x02; xcb; x36; x2c; xd1; xa3; x5e; x44; xb9; x70; x8d; x97; x6a; x73; x8e; x94; x69; xa0; x5d; x47; xba; xc8; x35; x2f; xd2; x1b; xe6; xfc; x01];
   [x00; xfe; xe1; x1f; xdf; x21; x3e; xc0; xa3; x5d; x42; xbc; x7c; x82; x9d; x63; x5b; xa5; xba; x44; x84; x7a; x65; x9b; xf8; x06; x19; xe7; x27; xd9; xc6; x38; xb6; x48; x57; xa9; x69; x97; x88; x76; x15; xeb; xf4; x0a; xca; x34; x2b; xd5; xed; x13; x0c; xf2; x32; xcc; xd3; x2d; x4e; xb0; xaf; x51; x91; x6f; x70; x8e; x71; x8f; x90; x6e; xae; x50; x4f; xb1; xd2; x2c; x33; xcd; x0d; xf3; xec; x12; x2a; xd4; xcb; x35; xf5; x0b; x14; xea; x89; x77; x68; x96; x56; xa8; xb7; x49; xc7; x39; x26; xd8; x18; xe6; xf9; x07; x64; x9a; x85; x7b; xbb; x45; x5a; xa4; x9c; x62; x7d; x83; x43; xbd; xa2; x5c; x3f; xc1; xde; x20; xe0; x1e; x01; xff; xe2; x1c; x03; xfd; x3d; xc3; xdc; x22; x41; xbf; xa0; x5e; x9e; x60; x7f; x81; xb9; x47; x58; xa6; x66; x98; x87; x79; x1a; xe4; xfb; x05; xc5; x3b; x24; xda; x54; xaa; xb5; x4b; x8b; x75; x6a; x94; xf7; x09; x16; xe8; x28; xd6; xc9; x37; x0f; xf1; xee; x10; xd0; x2e; x31; xcf; xac; x52; x4d; xb3; x73; x8d; x92; x6c; x93; x6d; x72; x8c; x4c; xb2; xad; x53; x30; xce; xd1; x2f; xef; x11; x0e; xf0; xc8; x36; x29; xd7; x17; xe9; xf6; x08; x6b; x95; x8a; x74; xb4; x4a; x55; xab; x25; xdb; xc4; x3a; xfa; x04; x1b; xe5; x86; x78; x67; x99; x59; xa7; xb8; x46; x7e; x80; x9f; x61; xa1; x5f; x40; xbe; xdd; x23; x3c; xc2; x02; xfc; xe3; x1d];
   [x00; xff; xe3; x1c; xdb; x24; x38; xc7; xab; x54; x48; xb7; x70; x8f; x93; x6c; x4b; xb4; xa8; x57; x90; x6f; x73; x8c; xe0; x1f; x03; xfc; x3b; xc4; xd8; x27; x96; x69; x75; x8a; x4d; xb2; xae; x51; x3d; xc2; xde; x21; xe6; x19; x05; xfa; xdd; x22; x3e; xc1; x06; xf9; xe5; x1a; x76; x89; x95; x6a; xad; x52; x4e; xb1; x31; xce; xd2; x2d; xea; x15; x09; xf6; x9a; x65; x79; x86; x41; xbe; xa2; x5d; x7a; x85; x99; x66; xa1; x5e; x42; xbd; xd1; x2e; x32; xcd; x0a; xf5; xe9; x16; xa7; x58; x44; xbb; x7c; x83; x9f; x60; x0c; xf3; xef; x10; xd7; x28; x34; xcb; xec; x13; x0f; xf0; x37; xc8; xd4; x2b; x47; xb8; xa4; x5b; x9c; x63; x7f; x80; x62; x9d; x81; x7e; xb9; x46; x5a; xa5; xc9; x36; x2a; xd5; x12; xed; xf1; x0e; x29; xd6; xca; x35; xf2; x0d; x11; xee; x82; x7d; x61; x9e; x59; xa6; xba; x45; xf4; x0b; x17; xe8; x2f; xd0; xcc; x33; x5f; xa0; xbc; x43; x84; x7b; x67; x98; xbf; x40; x5c; xa3; x64; x9b; x87; x78; x14; xeb; xf7; x08; xcf; x30; x2c; xd3; x53; xac; xb0; x4f; x88; x77; x6b; x94; xf8; x07; x1b; xe4; x23; xdc; xc0; x3f; x18; xe7; xfb; x04; xc3; x3c; x20; xdf; xb3; x4c; x50; xaf; x68; x97; x8b; x74; xc5; x3a; x26; xd9; x1e; xe1; xfd; x02; x6e; x91; x8d; x72; xb5; x4a; x56; xa9; x8e; x71; x6d; x92; x55; xaa; xb6; x49; x25; xda; xc6; x39; xfe; x01; x1d; xe2] ].
