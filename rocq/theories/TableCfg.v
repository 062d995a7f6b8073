(** * The table of configuration keys, cfg_val.rs 302-1113

    Written by tools/gen_tables.py; the comments give the lines. *)
From Coq Require Import String List NArith.
From Verif Require Import CfgVal.
Import ListNotations.
Open Scope N_scope.
Open Scope string_scope.

Definition cfg_table : list cfg_item := [
  mk_cfg_item "Uart1Baudrate" 0x40520001 TU32; (* 304 *)
  mk_cfg_item "Uart1StopBits" 0x20520002 TStopBits; (* 305 *)
  mk_cfg_item "Uart1DataBits" 0x20520003 TDataBits; (* 306 *)
  mk_cfg_item "Uart1Parity" 0x20520004 TParity; (* 307 *)
  mk_cfg_item "Uart1Enabled" 0x10520005 TBool; (* 308 *)
  mk_cfg_item "Uart1InProtUbx" 0x10730001 TBool; (* 311 *)
  mk_cfg_item "Uart1InProtNmea" 0x10730002 TBool; (* 312 *)
  mk_cfg_item "Uart1InProtRtcm3x" 0x10730004 TBool; (* 313 *)
  mk_cfg_item "Uart1OutProtUbx" 0x10740001 TBool; (* 316 *)
  mk_cfg_item "Uart1OutProtNmea" 0x10740002 TBool; (* 317 *)
  mk_cfg_item "Uart1OutProtRtcm3x" 0x10740004 TBool; (* 318 *)
  mk_cfg_item "Uart2Baudrate" 0x40530001 TU32; (* 321 *)
  mk_cfg_item "Uart2StopBits" 0x20530002 TStopBits; (* 322 *)
  mk_cfg_item "Uart2DataBits" 0x20530003 TDataBits; (* 323 *)
  mk_cfg_item "Uart2Parity" 0x20530004 TParity; (* 324 *)
  mk_cfg_item "Uart2Enabled" 0x10530005 TBool; (* 325 *)
  mk_cfg_item "Uart2Remap" 0x10530006 TBool; (* 326 *)
  mk_cfg_item "Uart2InProtUbx" 0x10750001 TBool; (* 329 *)
  mk_cfg_item "Uart2InProtNmea" 0x10750002 TBool; (* 330 *)
  mk_cfg_item "Uart2InProtRtcm3x" 0x10750004 TBool; (* 331 *)
  mk_cfg_item "Uart2OutProtUbx" 0x10760001 TBool; (* 334 *)
  mk_cfg_item "Uart2OutProtNmea" 0x10760002 TBool; (* 335 *)
  mk_cfg_item "Uart2OutProtRtcm3x" 0x10760004 TBool; (* 336 *)
  mk_cfg_item "UsbEnabled" 0x10650001 TBool; (* 339 *)
  mk_cfg_item "UsbSelfpow" 0x10650002 TBool; (* 340 *)
  mk_cfg_item "UsbVendorId" 0x3065000a TU16; (* 341 *)
  mk_cfg_item "UsbProductId" 0x3065000b TU16; (* 342 *)
  mk_cfg_item "UsbPower" 0x3065000c TU16; (* 343 *)
  mk_cfg_item "UsbVendorStr0" 0x5065000d TU64; (* 344 *)
  mk_cfg_item "UsbVendorStr1" 0x5065000e TU64; (* 345 *)
  mk_cfg_item "UsbVendorStr2" 0x5065000f TU64; (* 346 *)
  mk_cfg_item "UsbVendorStr3" 0x50650010 TU64; (* 347 *)
  mk_cfg_item "UsbProductStr0" 0x50650011 TU64; (* 348 *)
  mk_cfg_item "UsbProductStr1" 0x50650012 TU64; (* 349 *)
  mk_cfg_item "UsbProductStr2" 0x50650013 TU64; (* 350 *)
  mk_cfg_item "UsbProductStr3" 0x50650014 TU64; (* 351 *)
  mk_cfg_item "UsbSerialNoStr0" 0x50650015 TU64; (* 352 *)
  mk_cfg_item "UsbSerialNoStr1" 0x50650016 TU64; (* 353 *)
  mk_cfg_item "UsbSerialNoStr2" 0x50650017 TU64; (* 354 *)
  mk_cfg_item "UsbSerialNoStr3" 0x50650018 TU64; (* 355 *)
  mk_cfg_item "UsbinprotUbx" 0x10770001 TBool; (* 358 *)
  mk_cfg_item "UsbinprotNmea" 0x10770002 TBool; (* 359 *)
  mk_cfg_item "UsbinprotRtcm3X" 0x10770004 TBool; (* 360 *)
  mk_cfg_item "UsbOutProtUbx" 0x10780001 TBool; (* 363 *)
  mk_cfg_item "UsbOutProtNmea" 0x10780002 TBool; (* 364 *)
  mk_cfg_item "UsbOutProtRtcm3x" 0x10780004 TBool; (* 365 *)
  mk_cfg_item "InfmsgUbxI2c" 0x20920001 TCfgInfMask; (* 368 *)
  mk_cfg_item "InfmsgUbxUart1" 0x20920002 TCfgInfMask; (* 369 *)
  mk_cfg_item "InfmsgUbxUart2" 0x20920003 TCfgInfMask; (* 370 *)
  mk_cfg_item "InfmsgUbxUsb" 0x20920004 TCfgInfMask; (* 371 *)
  mk_cfg_item "InfmsgUbxSpi" 0x20920005 TCfgInfMask; (* 372 *)
  mk_cfg_item "InfmsgNmeaI2c" 0x20920006 TCfgInfMask; (* 373 *)
  mk_cfg_item "InfmsgNmeaUart1" 0x20920007 TCfgInfMask; (* 374 *)
  mk_cfg_item "InfmsgNmeaUart2" 0x20920008 TCfgInfMask; (* 375 *)
  mk_cfg_item "InfmsgNmeaUsb" 0x20920009 TCfgInfMask; (* 376 *)
  mk_cfg_item "InfmsgNmeaSpi" 0x2092000a TCfgInfMask; (* 377 *)
  mk_cfg_item "RateMeas" 0x30210001 TU16; (* 382 *)
  mk_cfg_item "RateNav" 0x30210002 TU16; (* 384 *)
  mk_cfg_item "RateTimeref" 0x20210003 TAlignment; (* 386 *)
  mk_cfg_item "MsgoutNmeaIdDtmI2c" 0x209100a6 TU8; (* 390 *)
  mk_cfg_item "MsgoutNmeaIdDtmSpi" 0x209100aa TU8; (* 392 *)
  mk_cfg_item "MsgoutNmeaIdDtmUart1" 0x209100a7 TU8; (* 394 *)
  mk_cfg_item "MsgoutNmeaIdDtmUart2" 0x209100a8 TU8; (* 396 *)
  mk_cfg_item "MsgoutNmeaIdDtmUsb" 0x209100a9 TU8; (* 398 *)
  mk_cfg_item "MsgoutNmeaIdGbsI2c" 0x209100dd TU8; (* 400 *)
  mk_cfg_item "MsgoutNmeaIdGbsSpi" 0x209100e1 TU8; (* 402 *)
  mk_cfg_item "MsgoutNmeaIdGbsUart1" 0x209100de TU8; (* 404 *)
  mk_cfg_item "MsgoutNmeaIdGbsUart2" 0x209100df TU8; (* 406 *)
  mk_cfg_item "MsgoutNmeaIdGbsUsb" 0x209100e0 TU8; (* 408 *)
  mk_cfg_item "MsgoutNmeaIdGgaI2c" 0x209100ba TU8; (* 410 *)
  mk_cfg_item "MsgoutNmeaIdGgaSpi" 0x209100be TU8; (* 412 *)
  mk_cfg_item "MsgoutNmeaIdGgaUart1" 0x209100bb TU8; (* 414 *)
  mk_cfg_item "MsgoutNmeaIdGgaUart2" 0x209100bc TU8; (* 416 *)
  mk_cfg_item "MsgoutNmeaIdGgaUsb" 0x209100bd TU8; (* 418 *)
  mk_cfg_item "MsgoutNmeaIdGllI2c" 0x209100c9 TU8; (* 420 *)
  mk_cfg_item "MsgoutNmeaIdGllSpi" 0x209100cd TU8; (* 422 *)
  mk_cfg_item "MsgoutNmeaIdGllUart1" 0x209100ca TU8; (* 424 *)
  mk_cfg_item "MsgoutNmeaIdGllUart2" 0x209100cb TU8; (* 426 *)
  mk_cfg_item "MsgoutNmeaIdGllUsb" 0x209100cc TU8; (* 428 *)
  mk_cfg_item "MsgoutNmeaIdGnsI2c" 0x209100b5 TU8; (* 430 *)
  mk_cfg_item "MsgoutNmeaIdGnsSpi" 0x209100b9 TU8; (* 432 *)
  mk_cfg_item "MsgoutNmeaIdGnsUart1" 0x209100b6 TU8; (* 434 *)
  mk_cfg_item "MsgoutNmeaIdGnsUart2" 0x209100b7 TU8; (* 436 *)
  mk_cfg_item "MsgoutNmeaIdGnsUsb" 0x209100b8 TU8; (* 438 *)
  mk_cfg_item "MsgoutNmeaIdGrsI2c" 0x209100ce TU8; (* 440 *)
  mk_cfg_item "MsgoutNmeaIdGrsSpi" 0x209100d2 TU8; (* 442 *)
  mk_cfg_item "MsgoutNmeaIdGrsUart1" 0x209100cf TU8; (* 444 *)
  mk_cfg_item "MsgoutNmeaIdGrsUart2" 0x209100d0 TU8; (* 446 *)
  mk_cfg_item "MsgoutNmeaIdGrsUsb" 0x209100d1 TU8; (* 448 *)
  mk_cfg_item "MsgoutNmeaIdGsaI2c" 0x209100bf TU8; (* 450 *)
  mk_cfg_item "MsgoutNmeaIdGsaSpi" 0x209100c3 TU8; (* 452 *)
  mk_cfg_item "MsgoutNmeaIdGsaUart1" 0x209100c0 TU8; (* 454 *)
  mk_cfg_item "MsgoutNmeaIdGsaUart2" 0x209100c1 TU8; (* 456 *)
  mk_cfg_item "MsgoutNmeaIdGsaUsb" 0x209100c2 TU8; (* 458 *)
  mk_cfg_item "MsgoutNmeaIdGstI2c" 0x209100d3 TU8; (* 460 *)
  mk_cfg_item "MsgoutNmeaIdGstSpi" 0x209100d7 TU8; (* 462 *)
  mk_cfg_item "MsgoutNmeaIdGstUart1" 0x209100d4 TU8; (* 464 *)
  mk_cfg_item "MsgoutNmeaIdGstUart2" 0x209100d5 TU8; (* 466 *)
  mk_cfg_item "MsgoutNmeaIdGstUsb" 0x209100d6 TU8; (* 468 *)
  mk_cfg_item "MsgoutNmeaIdGsvI2c" 0x209100c4 TU8; (* 470 *)
  mk_cfg_item "MsgoutNmeaIdGsvSpi" 0x209100c8 TU8; (* 472 *)
  mk_cfg_item "MsgoutNmeaIdGsvUart1" 0x209100c5 TU8; (* 474 *)
  mk_cfg_item "MsgoutNmeaIdGsvUart2" 0x209100c6 TU8; (* 476 *)
  mk_cfg_item "MsgoutNmeaIdGsvUsb" 0x209100c7 TU8; (* 478 *)
  mk_cfg_item "MsgoutNmeaIdRmcI2c" 0x209100ab TU8; (* 480 *)
  mk_cfg_item "MsgoutNmeaIdRmcSpi" 0x209100af TU8; (* 482 *)
  mk_cfg_item "MsgoutNmeaIdRmcUart1" 0x209100ac TU8; (* 484 *)
  mk_cfg_item "MsgoutNmeaIdRmcUart2" 0x209100ad TU8; (* 486 *)
  mk_cfg_item "MsgoutNmeaIdRmcUsb" 0x209100ae TU8; (* 488 *)
  mk_cfg_item "MsgoutNmeaIdVlwI2c" 0x209100e7 TU8; (* 490 *)
  mk_cfg_item "MsgoutNmeaIdVlwSpi" 0x209100eb TU8; (* 492 *)
  mk_cfg_item "MsgoutNmeaIdVlwUart1" 0x209100e8 TU8; (* 494 *)
  mk_cfg_item "MsgoutNmeaIdVlwUart2" 0x209100e9 TU8; (* 496 *)
  mk_cfg_item "MsgoutNmeaIdVlwUsb" 0x209100ea TU8; (* 498 *)
  mk_cfg_item "MsgoutNmeaIdVtgI2c" 0x209100b0 TU8; (* 500 *)
  mk_cfg_item "MsgoutNmeaIdVtgSpi" 0x209100b4 TU8; (* 502 *)
  mk_cfg_item "MsgoutNmeaIdVtgUart1" 0x209100b1 TU8; (* 504 *)
  mk_cfg_item "MsgoutNmeaIdVtgUart2" 0x209100b2 TU8; (* 506 *)
  mk_cfg_item "MsgoutNmeaIdVtgUsb" 0x209100b3 TU8; (* 508 *)
  mk_cfg_item "MsgoutNmeaIdZdaI2c" 0x209100d8 TU8; (* 510 *)
  mk_cfg_item "MsgoutNmeaIdZdaSpi" 0x209100dc TU8; (* 512 *)
  mk_cfg_item "MsgoutNmeaIdZdaUart1" 0x209100d9 TU8; (* 514 *)
  mk_cfg_item "MsgoutNmeaIdZdaUart2" 0x209100da TU8; (* 516 *)
  mk_cfg_item "MsgoutNmeaIdZdaUsb" 0x209100db TU8; (* 518 *)
  mk_cfg_item "MsgoutPubxIdPolypI2c" 0x209100ec TU8; (* 520 *)
  mk_cfg_item "MsgoutPubxIdPolypSpi" 0x209100f0 TU8; (* 522 *)
  mk_cfg_item "MsgoutPubxIdPolypUart1" 0x209100ed TU8; (* 524 *)
  mk_cfg_item "MsgoutPubxIdPolypUart2" 0x209100ee TU8; (* 526 *)
  mk_cfg_item "MsgoutPubxIdPolypUsb" 0x209100ef TU8; (* 528 *)
  mk_cfg_item "MsgoutPubxIdPolysI2c" 0x209100f1 TU8; (* 530 *)
  mk_cfg_item "MsgoutPubxIdPolysSpi" 0x209100f5 TU8; (* 532 *)
  mk_cfg_item "MsgoutPubxIdPolysUart1" 0x209100f2 TU8; (* 534 *)
  mk_cfg_item "MsgoutPubxIdPolysUart2" 0x209100f3 TU8; (* 536 *)
  mk_cfg_item "MsgoutPubxIdPolysUsb" 0x209100f4 TU8; (* 538 *)
  mk_cfg_item "MsgoutPubxIdPolytI2c" 0x209100f6 TU8; (* 540 *)
  mk_cfg_item "MsgoutPubxIdPolytSpi" 0x209100fa TU8; (* 542 *)
  mk_cfg_item "MsgoutPubxIdPolytUart1" 0x209100f7 TU8; (* 544 *)
  mk_cfg_item "MsgoutPubxIdPolytUart2" 0x209100f8 TU8; (* 546 *)
  mk_cfg_item "MsgoutPubxIdPolytUsb" 0x209100f9 TU8; (* 548 *)
  mk_cfg_item "MsgoutRtcm3xType1005I2c" 0x209102bd TU8; (* 550 *)
  mk_cfg_item "MsgoutRtcm3xType1005Spi" 0x209102c1 TU8; (* 552 *)
  mk_cfg_item "MsgoutRtcm3xType1005Uart1" 0x209102be TU8; (* 554 *)
  mk_cfg_item "MsgoutRtcm3xType1005Uart2" 0x209102bf TU8; (* 556 *)
  mk_cfg_item "MsgoutRtcm3xType1005Usb" 0x209102c0 TU8; (* 558 *)
  mk_cfg_item "MsgoutRtcm3xType1074I2c" 0x2091035e TU8; (* 560 *)
  mk_cfg_item "MsgoutRtcm3xType1074Spi" 0x20910362 TU8; (* 562 *)
  mk_cfg_item "MsgoutRtcm3xType1074Uart1" 0x2091035f TU8; (* 564 *)
  mk_cfg_item "MsgoutRtcm3xType1074Uart2" 0x20910360 TU8; (* 566 *)
  mk_cfg_item "MsgoutRtcm3xType1074Usb" 0x20910361 TU8; (* 568 *)
  mk_cfg_item "MsgoutRtcm3xType1077I2c" 0x209102cc TU8; (* 570 *)
  mk_cfg_item "MsgoutRtcm3xType1077Spi" 0x209102d0 TU8; (* 572 *)
  mk_cfg_item "MsgoutRtcm3xType1077Uart1" 0x209102cd TU8; (* 574 *)
  mk_cfg_item "MsgoutRtcm3xType1077Uart2" 0x209102ce TU8; (* 576 *)
  mk_cfg_item "MsgoutRtcm3xType1077Usb" 0x209102cf TU8; (* 578 *)
  mk_cfg_item "MsgoutRtcm3xType1084I2c" 0x20910363 TU8; (* 580 *)
  mk_cfg_item "MsgoutRtcm3xType1084Spi" 0x20910367 TU8; (* 582 *)
  mk_cfg_item "MsgoutRtcm3xType1084Uart1" 0x20910364 TU8; (* 584 *)
  mk_cfg_item "MsgoutRtcm3xType1084Uart2" 0x20910365 TU8; (* 586 *)
  mk_cfg_item "MsgoutRtcm3xType1084Usb" 0x20910366 TU8; (* 588 *)
  mk_cfg_item "MsgoutRtcm3xType1087I2c" 0x209102d1 TU8; (* 590 *)
  mk_cfg_item "MsgoutRtcm3xType1087Spi" 0x209102d5 TU8; (* 592 *)
  mk_cfg_item "MsgoutRtcm3xType1087Uart1" 0x209102d2 TU8; (* 594 *)
  mk_cfg_item "MsgoutRtcm3xType1087Uart2" 0x209102d3 TU8; (* 596 *)
  mk_cfg_item "MsgoutRtcm3xType1087Usb" 0x209102d4 TU8; (* 598 *)
  mk_cfg_item "MsgoutRtcm3xType1094I2c" 0x20910368 TU8; (* 600 *)
  mk_cfg_item "MsgoutRtcm3xType1094Spi" 0x2091036c TU8; (* 602 *)
  mk_cfg_item "MsgoutRtcm3xType1094Uart1" 0x20910369 TU8; (* 604 *)
  mk_cfg_item "MsgoutRtcm3xType1094Uart2" 0x2091036a TU8; (* 606 *)
  mk_cfg_item "MsgoutRtcm3xType1094Usb" 0x2091036b TU8; (* 608 *)
  mk_cfg_item "MsgoutRtcm3xType1097I2c" 0x20910318 TU8; (* 610 *)
  mk_cfg_item "MsgoutRtcm3xType1097Spi" 0x2091031c TU8; (* 612 *)
  mk_cfg_item "MsgoutRtcm3xType1097Uart1" 0x20910319 TU8; (* 614 *)
  mk_cfg_item "MsgoutRtcm3xType1097Uart2" 0x2091031a TU8; (* 616 *)
  mk_cfg_item "MsgoutRtcm3xType1097Usb" 0x2091031b TU8; (* 618 *)
  mk_cfg_item "MsgoutRtcm3xType1124I2c" 0x2091036d TU8; (* 620 *)
  mk_cfg_item "MsgoutRtcm3xType1124Spi" 0x20910371 TU8; (* 622 *)
  mk_cfg_item "MsgoutRtcm3xType1124Uart1" 0x2091036e TU8; (* 624 *)
  mk_cfg_item "MsgoutRtcm3xType1124Uart2" 0x2091036f TU8; (* 626 *)
  mk_cfg_item "MsgoutRtcm3xType1124Usb" 0x20910370 TU8; (* 628 *)
  mk_cfg_item "MsgoutRtcm3xType1127I2c" 0x209102d6 TU8; (* 630 *)
  mk_cfg_item "MsgoutRtcm3xType1127Spi" 0x209102da TU8; (* 632 *)
  mk_cfg_item "MsgoutRtcm3xType1127Uart1" 0x209102d7 TU8; (* 634 *)
  mk_cfg_item "MsgoutRtcm3xType1127Uart2" 0x209102d8 TU8; (* 636 *)
  mk_cfg_item "MsgoutRtcm3xType1127Usb" 0x209102d9 TU8; (* 638 *)
  mk_cfg_item "MsgoutRtcm3xType1230I2c" 0x20910303 TU8; (* 640 *)
  mk_cfg_item "MsgoutRtcm3xType1230Spi" 0x20910307 TU8; (* 642 *)
  mk_cfg_item "MsgoutRtcm3xType1230Uart1" 0x20910304 TU8; (* 644 *)
  mk_cfg_item "MsgoutRtcm3xType1230Uart2" 0x20910305 TU8; (* 646 *)
  mk_cfg_item "MsgoutRtcm3xType1230Usb" 0x20910306 TU8; (* 648 *)
  mk_cfg_item "MsgoutUbxLogInfoI2c" 0x20910259 TU8; (* 650 *)
  mk_cfg_item "MsgoutUbxLogInfoSpi" 0x2091025d TU8; (* 652 *)
  mk_cfg_item "MsgoutUbxLogInfoUart1" 0x2091025a TU8; (* 654 *)
  mk_cfg_item "MsgoutUbxLogInfoUart2" 0x2091025b TU8; (* 656 *)
  mk_cfg_item "MsgoutUbxLogInfoUsb" 0x2091025c TU8; (* 658 *)
  mk_cfg_item "MsgoutUbxMonCommsI2c" 0x2091034f TU8; (* 660 *)
  mk_cfg_item "MsgoutUbxMonCommsSpi" 0x20910353 TU8; (* 662 *)
  mk_cfg_item "MsgoutUbxMonCommsUart1" 0x20910350 TU8; (* 664 *)
  mk_cfg_item "MsgoutUbxMonCommsUart2" 0x20910351 TU8; (* 666 *)
  mk_cfg_item "MsgoutUbxMonCommsUsb" 0x20910352 TU8; (* 668 *)
  mk_cfg_item "MsgoutUbxMonHw2I2c" 0x209101b9 TU8; (* 670 *)
  mk_cfg_item "MsgoutUbxMonHw2Spi" 0x209101bd TU8; (* 672 *)
  mk_cfg_item "MsgoutUbxMonHw2Uart1" 0x209101ba TU8; (* 674 *)
  mk_cfg_item "MsgoutUbxMonHw2Uart2" 0x209101bb TU8; (* 676 *)
  mk_cfg_item "MsgoutUbxMonHw2Usb" 0x209101bc TU8; (* 678 *)
  mk_cfg_item "MsgoutUbxMonHw3I2c" 0x20910354 TU8; (* 680 *)
  mk_cfg_item "MsgoutUbxMonHw3Spi" 0x20910358 TU8; (* 682 *)
  mk_cfg_item "MsgoutUbxMonHw3Uart1" 0x20910355 TU8; (* 684 *)
  mk_cfg_item "MsgoutUbxMonHw3Uart2" 0x20910356 TU8; (* 686 *)
  mk_cfg_item "MsgoutUbxMonHw3Usb" 0x20910357 TU8; (* 688 *)
  mk_cfg_item "MsgoutUbxMonHwI2c" 0x209101b4 TU8; (* 690 *)
  mk_cfg_item "MsgoutUbxMonHwSpi" 0x209101b8 TU8; (* 692 *)
  mk_cfg_item "MsgoutUbxMonHwUart1" 0x209101b5 TU8; (* 694 *)
  mk_cfg_item "MsgoutUbxMonHwUart2" 0x209101b6 TU8; (* 696 *)
  mk_cfg_item "MsgoutUbxMonHwUsb" 0x209101b7 TU8; (* 698 *)
  mk_cfg_item "MsgoutUbxMonIoI2c" 0x209101a5 TU8; (* 700 *)
  mk_cfg_item "MsgoutUbxMonIoSpi" 0x209101a9 TU8; (* 702 *)
  mk_cfg_item "MsgoutUbxMonIoUart1" 0x209101a6 TU8; (* 704 *)
  mk_cfg_item "MsgoutUbxMonIoUart2" 0x209101a7 TU8; (* 706 *)
  mk_cfg_item "MsgoutUbxMonIoUsb" 0x209101a8 TU8; (* 708 *)
  mk_cfg_item "MsgoutUbxMonMsgPpI2c" 0x20910196 TU8; (* 710 *)
  mk_cfg_item "MsgoutUbxMonMsgPpSpi" 0x2091019a TU8; (* 712 *)
  mk_cfg_item "MsgoutUbxMonMsgPpUart1" 0x20910197 TU8; (* 714 *)
  mk_cfg_item "MsgoutUbxMonMsgPpUart2" 0x20910198 TU8; (* 716 *)
  mk_cfg_item "MsgoutUbxMonMsgPpUsb" 0x20910199 TU8; (* 718 *)
  mk_cfg_item "MsgoutUbxMonRfI2c" 0x20910359 TU8; (* 720 *)
  mk_cfg_item "MsgoutUbxMonRfSpi" 0x2091035d TU8; (* 722 *)
  mk_cfg_item "MsgoutUbxMonRfUart1" 0x2091035a TU8; (* 724 *)
  mk_cfg_item "MsgoutUbxMonRfUart2" 0x2091035b TU8; (* 726 *)
  mk_cfg_item "MsgoutUbxMonRfUsb" 0x2091035c TU8; (* 728 *)
  mk_cfg_item "MsgoutUbxMonRxbufI2c" 0x209101a0 TU8; (* 730 *)
  mk_cfg_item "MsgoutUbxMonRxbufSpi" 0x209101a4 TU8; (* 732 *)
  mk_cfg_item "MsgoutUbxMonRxbufUart1" 0x209101a1 TU8; (* 734 *)
  mk_cfg_item "MsgoutUbxMonRxbufUart2" 0x209101a2 TU8; (* 736 *)
  mk_cfg_item "MsgoutUbxMonRxbufUsb" 0x209101a3 TU8; (* 738 *)
  mk_cfg_item "MsgoutUbxMonRxrI2c" 0x20910187 TU8; (* 740 *)
  mk_cfg_item "MsgoutUbxMonRxrSpi" 0x2091018b TU8; (* 742 *)
  mk_cfg_item "MsgoutUbxMonRxrUart1" 0x20910188 TU8; (* 744 *)
  mk_cfg_item "MsgoutUbxMonRxrUart2" 0x20910189 TU8; (* 746 *)
  mk_cfg_item "MsgoutUbxMonRxrUsb" 0x2091018a TU8; (* 748 *)
  mk_cfg_item "MsgoutUbxMonTxbufI2c" 0x2091019b TU8; (* 750 *)
  mk_cfg_item "MsgoutUbxMonTxbufSpi" 0x2091019f TU8; (* 752 *)
  mk_cfg_item "MsgoutUbxMonTxbufUart1" 0x2091019c TU8; (* 754 *)
  mk_cfg_item "MsgoutUbxMonTxbufUart2" 0x2091019d TU8; (* 756 *)
  mk_cfg_item "MsgoutUbxMonTxbufUsb" 0x2091019e TU8; (* 758 *)
  mk_cfg_item "MsgoutUbxNavClockI2c" 0x20910065 TU8; (* 760 *)
  mk_cfg_item "MsgoutUbxNavClockSpi" 0x20910069 TU8; (* 762 *)
  mk_cfg_item "MsgoutUbxNavClockUart1" 0x20910066 TU8; (* 764 *)
  mk_cfg_item "MsgoutUbxNavClockUart2" 0x20910067 TU8; (* 766 *)
  mk_cfg_item "MsgoutUbxNavClockUsb" 0x20910068 TU8; (* 768 *)
  mk_cfg_item "MsgoutUbxNavDopI2c" 0x20910038 TU8; (* 770 *)
  mk_cfg_item "MsgoutUbxNavDopSpi" 0x2091003c TU8; (* 772 *)
  mk_cfg_item "MsgoutUbxNavDopUart1" 0x20910039 TU8; (* 774 *)
  mk_cfg_item "MsgoutUbxNavDopUart2" 0x2091003a TU8; (* 776 *)
  mk_cfg_item "MsgoutUbxNavDopUsb" 0x2091003b TU8; (* 778 *)
  mk_cfg_item "MsgoutUbxNavEoeI2c" 0x2091015f TU8; (* 780 *)
  mk_cfg_item "MsgoutUbxNavEoeSpi" 0x20910163 TU8; (* 782 *)
  mk_cfg_item "MsgoutUbxNavEoeUart1" 0x20910160 TU8; (* 784 *)
  mk_cfg_item "MsgoutUbxNavEoeUart2" 0x20910161 TU8; (* 786 *)
  mk_cfg_item "MsgoutUbxNavEoeUsb" 0x20910162 TU8; (* 788 *)
  mk_cfg_item "MsgoutUbxNavGeofenceI2c" 0x209100a1 TU8; (* 790 *)
  mk_cfg_item "MsgoutUbxNavGeofenceSpi" 0x209100a5 TU8; (* 792 *)
  mk_cfg_item "MsgoutUbxNavGeofenceUart1" 0x209100a2 TU8; (* 794 *)
  mk_cfg_item "MsgoutUbxNavGeofenceUart2" 0x209100a3 TU8; (* 796 *)
  mk_cfg_item "MsgoutUbxNavGeofenceUsb" 0x209100a4 TU8; (* 798 *)
  mk_cfg_item "MsgoutUbxNavHpPosEcefI2c" 0x2091002e TU8; (* 800 *)
  mk_cfg_item "MsgoutUbxNavHpPosEcefSpi" 0x20910032 TU8; (* 802 *)
  mk_cfg_item "MsgoutUbxNavHpPosEcefUart1" 0x2091002f TU8; (* 804 *)
  mk_cfg_item "MsgoutUbxNavHpPosEcefUart2" 0x20910030 TU8; (* 806 *)
  mk_cfg_item "MsgoutUbxNavHpPosEcefUsb" 0x20910031 TU8; (* 808 *)
  mk_cfg_item "MsgoutUbxNavHpPosllhI2c" 0x20910033 TU8; (* 810 *)
  mk_cfg_item "MsgoutUbxNavHpPosllhSpi" 0x20910037 TU8; (* 812 *)
  mk_cfg_item "MsgoutUbxNavHpPosllhUart1" 0x20910034 TU8; (* 814 *)
  mk_cfg_item "MsgoutUbxNavHpPosllhUart2" 0x20910035 TU8; (* 816 *)
  mk_cfg_item "MsgoutUbxNavHpPosllhUsb" 0x20910036 TU8; (* 818 *)
  mk_cfg_item "MsgoutUbxNavOdoI2c" 0x2091007e TU8; (* 820 *)
  mk_cfg_item "MsgoutUbxNavOdoSpi" 0x20910082 TU8; (* 822 *)
  mk_cfg_item "MsgoutUbxNavOdoUart1" 0x2091007f TU8; (* 824 *)
  mk_cfg_item "MsgoutUbxNavOdoUart2" 0x20910080 TU8; (* 826 *)
  mk_cfg_item "MsgoutUbxNavOdoUsb" 0x20910081 TU8; (* 828 *)
  mk_cfg_item "MsgoutUbxNavOrbI2c" 0x20910010 TU8; (* 830 *)
  mk_cfg_item "MsgoutUbxNavOrbSpi" 0x20910014 TU8; (* 832 *)
  mk_cfg_item "MsgoutUbxNavOrbUart1" 0x20910011 TU8; (* 834 *)
  mk_cfg_item "MsgoutUbxNavOrbUart2" 0x20910012 TU8; (* 836 *)
  mk_cfg_item "MsgoutUbxNavOrbUsb" 0x20910013 TU8; (* 838 *)
  mk_cfg_item "MsgoutUbxNavPosEcefI2c" 0x20910024 TU8; (* 840 *)
  mk_cfg_item "MsgoutUbxNavPosEcefSpi" 0x20910028 TU8; (* 842 *)
  mk_cfg_item "MsgoutUbxNavPosEcefUart1" 0x20910025 TU8; (* 844 *)
  mk_cfg_item "MsgoutUbxNavPosEcefUart2" 0x20910026 TU8; (* 846 *)
  mk_cfg_item "MsgoutUbxNavPosEcefUsb" 0x20910027 TU8; (* 848 *)
  mk_cfg_item "MsgoutUbxNavPosLlhI2c" 0x20910029 TU8; (* 850 *)
  mk_cfg_item "MsgoutUbxNavPosLlhSpi" 0x2091002d TU8; (* 852 *)
  mk_cfg_item "MsgoutUbxNavPosLlhUart1" 0x2091002a TU8; (* 854 *)
  mk_cfg_item "MsgoutUbxNavPosLlhUart2" 0x2091002b TU8; (* 856 *)
  mk_cfg_item "MsgoutUbxNavPosLlhUsb" 0x2091002c TU8; (* 858 *)
  mk_cfg_item "MsgoutUbxNavPvtI2c" 0x20910006 TU8; (* 860 *)
  mk_cfg_item "MsgoutUbxNavPvtSpi" 0x2091000a TU8; (* 862 *)
  mk_cfg_item "MsgoutUbxNavPvtUart1" 0x20910007 TU8; (* 864 *)
  mk_cfg_item "MsgoutUbxNavPvtUart2" 0x20910008 TU8; (* 866 *)
  mk_cfg_item "MsgoutUbxNavPvtUsb" 0x20910009 TU8; (* 868 *)
  mk_cfg_item "MsgoutUbxNavRelposnedI2c" 0x2091008d TU8; (* 870 *)
  mk_cfg_item "MsgoutUbxNavRelposnedSpi" 0x20910091 TU8; (* 872 *)
  mk_cfg_item "MsgoutUbxNavRelposnedUart1" 0x2091008e TU8; (* 874 *)
  mk_cfg_item "MsgoutUbxNavRelposnedUart2" 0x2091008f TU8; (* 876 *)
  mk_cfg_item "MsgoutUbxNavRelposnedUsb" 0x20910090 TU8; (* 878 *)
  mk_cfg_item "MsgoutUbxNavSatI2c" 0x20910015 TU8; (* 880 *)
  mk_cfg_item "MsgoutUbxNavSatSpi" 0x20910019 TU8; (* 882 *)
  mk_cfg_item "MsgoutUbxNavSatUart1" 0x20910016 TU8; (* 884 *)
  mk_cfg_item "MsgoutUbxNavSatUart2" 0x20910017 TU8; (* 886 *)
  mk_cfg_item "MsgoutUbxNavSatUsb" 0x20910018 TU8; (* 888 *)
  mk_cfg_item "MsgoutUbxNavSigI2c" 0x20910345 TU8; (* 890 *)
  mk_cfg_item "MsgoutUbxNavSigSpi" 0x20910349 TU8; (* 892 *)
  mk_cfg_item "MsgoutUbxNavSigUart1" 0x20910346 TU8; (* 894 *)
  mk_cfg_item "MsgoutUbxNavSigUart2" 0x20910347 TU8; (* 896 *)
  mk_cfg_item "MsgoutUbxNavSigUsb" 0x20910348 TU8; (* 898 *)
  mk_cfg_item "MsgoutUbxNavStatusI2c" 0x2091001a TU8; (* 900 *)
  mk_cfg_item "MsgoutUbxNavStatusSpi" 0x2091001e TU8; (* 902 *)
  mk_cfg_item "MsgoutUbxNavStatusUart1" 0x2091001b TU8; (* 904 *)
  mk_cfg_item "MsgoutUbxNavStatusUart2" 0x2091001c TU8; (* 906 *)
  mk_cfg_item "MsgoutUbxNavStatusUsb" 0x2091001d TU8; (* 908 *)
  mk_cfg_item "MsgoutUbxNavSvinI2c" 0x20910088 TU8; (* 910 *)
  mk_cfg_item "MsgoutUbxNavSvinSpi" 0x2091008c TU8; (* 912 *)
  mk_cfg_item "MsgoutUbxNavSvinUart1" 0x20910089 TU8; (* 914 *)
  mk_cfg_item "MsgoutUbxNavSvinUart2" 0x2091008a TU8; (* 916 *)
  mk_cfg_item "MsgoutUbxNavSvinUsb" 0x2091008b TU8; (* 918 *)
  mk_cfg_item "MsgoutUbxNavTimeBdsI2c" 0x20910051 TU8; (* 920 *)
  mk_cfg_item "MsgoutUbxNavTimeBdsSpi" 0x20910055 TU8; (* 922 *)
  mk_cfg_item "MsgoutUbxNavTimeBdsUart1" 0x20910052 TU8; (* 924 *)
  mk_cfg_item "MsgoutUbxNavTimeBdsUart2" 0x20910053 TU8; (* 926 *)
  mk_cfg_item "MsgoutUbxNavTimeBdsUsb" 0x20910054 TU8; (* 928 *)
  mk_cfg_item "MsgoutUbxNavTimeGalI2c" 0x20910056 TU8; (* 930 *)
  mk_cfg_item "MsgoutUbxNavTimeGalSpi" 0x2091005a TU8; (* 932 *)
  mk_cfg_item "MsgoutUbxNavTimeGalUart1" 0x20910057 TU8; (* 934 *)
  mk_cfg_item "MsgoutUbxNavTimeGalUart2" 0x20910058 TU8; (* 936 *)
  mk_cfg_item "MsgoutUbxNavTimeGalUsb" 0x20910059 TU8; (* 938 *)
  mk_cfg_item "MsgoutUbxNavTimeGloI2c" 0x2091004c TU8; (* 940 *)
  mk_cfg_item "MsgoutUbxNavTimeGloSpi" 0x20910050 TU8; (* 942 *)
  mk_cfg_item "MsgoutUbxNavTimeGloUart1" 0x2091004d TU8; (* 944 *)
  mk_cfg_item "MsgoutUbxNavTimeGloUart2" 0x2091004e TU8; (* 946 *)
  mk_cfg_item "MsgoutUbxNavTimeGloUsb" 0x2091004f TU8; (* 948 *)
  mk_cfg_item "MsgoutUbxNavTimeGpsI2c" 0x20910047 TU8; (* 950 *)
  mk_cfg_item "MsgoutUbxNavTimeGpsSpi" 0x2091004b TU8; (* 952 *)
  mk_cfg_item "MsgoutUbxNavTimeGpsUart1" 0x20910048 TU8; (* 954 *)
  mk_cfg_item "MsgoutUbxNavTimeGpsUart2" 0x20910049 TU8; (* 956 *)
  mk_cfg_item "MsgoutUbxNavTimeGpsUsb" 0x2091004a TU8; (* 958 *)
  mk_cfg_item "MsgoutUbxNavTimeLsI2c" 0x20910060 TU8; (* 960 *)
  mk_cfg_item "MsgoutUbxNavTimeLsSpi" 0x20910064 TU8; (* 962 *)
  mk_cfg_item "MsgoutUbxNavTimeLsUart1" 0x20910061 TU8; (* 964 *)
  mk_cfg_item "MsgoutUbxNavTimeLsUart2" 0x20910062 TU8; (* 966 *)
  mk_cfg_item "MsgoutUbxNavTimeLsUsb" 0x20910063 TU8; (* 968 *)
  mk_cfg_item "MsgoutUbxNavTimeUtcI2c" 0x2091005b TU8; (* 970 *)
  mk_cfg_item "MsgoutUbxNavTimeUtcSpi" 0x2091005f TU8; (* 972 *)
  mk_cfg_item "MsgoutUbxNavTimeUtcUart1" 0x2091005c TU8; (* 974 *)
  mk_cfg_item "MsgoutUbxNavTimeUtcUart2" 0x2091005d TU8; (* 976 *)
  mk_cfg_item "MsgoutUbxNavTimeUtcUsb" 0x2091005e TU8; (* 978 *)
  mk_cfg_item "MsgoutUbxNavVelEcefI2c" 0x2091003d TU8; (* 980 *)
  mk_cfg_item "MsgoutUbxNavVelEcefSpi" 0x20910041 TU8; (* 982 *)
  mk_cfg_item "MsgoutUbxNavVelEcefUart1" 0x2091003e TU8; (* 984 *)
  mk_cfg_item "MsgoutUbxNavVelEcefUart2" 0x2091003f TU8; (* 986 *)
  mk_cfg_item "MsgoutUbxNavVelEcefUsb" 0x20910040 TU8; (* 988 *)
  mk_cfg_item "MsgoutUbxNavVelNedI2c" 0x20910042 TU8; (* 990 *)
  mk_cfg_item "MsgoutUbxNavVelNedSpi" 0x20910046 TU8; (* 992 *)
  mk_cfg_item "MsgoutUbxNavVelNedUart1" 0x20910043 TU8; (* 994 *)
  mk_cfg_item "MsgoutUbxNavVelNedUart2" 0x20910044 TU8; (* 996 *)
  mk_cfg_item "MsgoutUbxNavVelNedUsb" 0x20910045 TU8; (* 998 *)
  mk_cfg_item "MsgoutUbxRxmMeasxI2c" 0x20910204 TU8; (* 1000 *)
  mk_cfg_item "MsgoutUbxRxmMeasxSpi" 0x20910208 TU8; (* 1002 *)
  mk_cfg_item "MsgoutUbxRxmMeasxUart1" 0x20910205 TU8; (* 1004 *)
  mk_cfg_item "MsgoutUbxRxmMeasxUart2" 0x20910206 TU8; (* 1006 *)
  mk_cfg_item "MsgoutUbxRxmMeasxUsb" 0x20910207 TU8; (* 1008 *)
  mk_cfg_item "MsgoutUbxRxmRawxI2c" 0x209102a4 TU8; (* 1010 *)
  mk_cfg_item "MsgoutUbxRxmRawxSpi" 0x209102a8 TU8; (* 1012 *)
  mk_cfg_item "MsgoutUbxRxmRawxUart1" 0x209102a5 TU8; (* 1014 *)
  mk_cfg_item "MsgoutUbxRxmRawxUart2" 0x209102a6 TU8; (* 1016 *)
  mk_cfg_item "MsgoutUbxRxmRawxUsb" 0x209102a7 TU8; (* 1018 *)
  mk_cfg_item "MsgoutUbxRxmRlmI2c" 0x2091025e TU8; (* 1020 *)
  mk_cfg_item "MsgoutUbxRxmRlmSpi" 0x20910262 TU8; (* 1022 *)
  mk_cfg_item "MsgoutUbxRxmRlmUart1" 0x2091025f TU8; (* 1024 *)
  mk_cfg_item "MsgoutUbxRxmRlmUart2" 0x20910260 TU8; (* 1026 *)
  mk_cfg_item "MsgoutUbxRxmRlmUsb" 0x20910261 TU8; (* 1028 *)
  mk_cfg_item "MsgoutUbxRxmRtcmI2c" 0x20910268 TU8; (* 1030 *)
  mk_cfg_item "MsgoutUbxRxmRtcmSpi" 0x2091026c TU8; (* 1032 *)
  mk_cfg_item "MsgoutUbxRxmRtcmUart1" 0x20910269 TU8; (* 1034 *)
  mk_cfg_item "MsgoutUbxRxmRtcmUart2" 0x2091026a TU8; (* 1036 *)
  mk_cfg_item "MsgoutUbxRxmRtcmUsb" 0x2091026b TU8; (* 1038 *)
  mk_cfg_item "MsgoutUbxRxmSfrbxI2c" 0x20910231 TU8; (* 1040 *)
  mk_cfg_item "MsgoutUbxRxmSfrbxSpi" 0x20910235 TU8; (* 1042 *)
  mk_cfg_item "MsgoutUbxRxmSfrbxUart1" 0x20910232 TU8; (* 1044 *)
  mk_cfg_item "MsgoutUbxRxmSfrbxUart2" 0x20910233 TU8; (* 1046 *)
  mk_cfg_item "MsgoutUbxRxmSfrbxUsb" 0x20910234 TU8; (* 1048 *)
  mk_cfg_item "MsgoutUbxTimTm2I2c" 0x20910178 TU8; (* 1050 *)
  mk_cfg_item "MsgoutUbxTimTm2Spi" 0x2091017c TU8; (* 1052 *)
  mk_cfg_item "MsgoutUbxTimTm2Uart1" 0x20910179 TU8; (* 1054 *)
  mk_cfg_item "MsgoutUbxTimTm2Uart2" 0x2091017a TU8; (* 1056 *)
  mk_cfg_item "MsgoutUbxTimTm2Usb" 0x2091017b TU8; (* 1058 *)
  mk_cfg_item "MsgoutUbxTimTpI2c" 0x2091017d TU8; (* 1060 *)
  mk_cfg_item "MsgoutUbxTimTpSpi" 0x20910181 TU8; (* 1062 *)
  mk_cfg_item "MsgoutUbxTimTpUart1" 0x2091017e TU8; (* 1064 *)
  mk_cfg_item "MsgoutUbxTimTpUart2" 0x2091017f TU8; (* 1066 *)
  mk_cfg_item "MsgoutUbxTimTpUsb" 0x20910180 TU8; (* 1068 *)
  mk_cfg_item "MsgoutUbxTimVrfyI2c" 0x20910092 TU8; (* 1070 *)
  mk_cfg_item "MsgoutUbxTimVrfySpi" 0x20910096 TU8; (* 1072 *)
  mk_cfg_item "MsgoutUbxTimVrfyUart1" 0x20910093 TU8; (* 1074 *)
  mk_cfg_item "MsgoutUbxTimVrfyUart2" 0x20910094 TU8; (* 1076 *)
  mk_cfg_item "MsgoutUbxTimVrfyUsb" 0x20910095 TU8; (* 1078 *)
  mk_cfg_item "SignalGpsEna" 0x1031001f TBool; (* 1081 *)
  mk_cfg_item "SignalGpsL1caEna" 0x10310001 TBool; (* 1082 *)
  mk_cfg_item "SignalGpsL2cEna" 0x10310003 TBool; (* 1083 *)
  mk_cfg_item "SignalGalEna" 0x10310021 TBool; (* 1084 *)
  mk_cfg_item "SignalGalE1Ena" 0x10310007 TBool; (* 1085 *)
  mk_cfg_item "SignalGalE5bEna" 0x1031000a TBool; (* 1086 *)
  mk_cfg_item "SignalBdsEna" 0x10310022 TBool; (* 1087 *)
  mk_cfg_item "SignalBdsB1Ena" 0x1031000d TBool; (* 1088 *)
  mk_cfg_item "SignalBdsB2Ena" 0x1031000e TBool; (* 1089 *)
  mk_cfg_item "SignalQzssEna" 0x10310024 TBool; (* 1090 *)
  mk_cfg_item "SignalQzssL1caEna" 0x10310012 TBool; (* 1091 *)
  mk_cfg_item "SignalQzssL2cEna" 0x10310015 TBool; (* 1092 *)
  mk_cfg_item "SignalGloEna" 0x10310025 TBool; (* 1093 *)
  mk_cfg_item "SignalGloL1Ena" 0x10310018 TBool; (* 1094 *)
  mk_cfg_item "SignalGLoL2Ena" 0x1031001a TBool; (* 1095 *)
  mk_cfg_item "TpPulseDef" 0x20050023 TTpPulse; (* 1098 *)
  mk_cfg_item "TpPulseLengthDef" 0x20050030 TTpPulseLength; (* 1099 *)
  mk_cfg_item "TpAntCableDelay" 0x30050001 TI16; (* 1100 *)
  mk_cfg_item "TpPeriodTp1" 0x40050002 TU32; (* 1101 *)
  mk_cfg_item "TpPeriodLockTp1" 0x40050003 TU32; (* 1102 *)
  mk_cfg_item "TpFreqTp1" 0x40050024 TU32; (* 1103 *)
  mk_cfg_item "TpFreqLockTp1" 0x40050025 TU32; (* 1104 *)
  mk_cfg_item "TpLenTp1" 0x40050004 TU32; (* 1105 *)
  mk_cfg_item "TpLenLockTp1" 0x40050005 TU32; (* 1106 *)
  mk_cfg_item "TpTp1Ena" 0x10050007 TBool; (* 1107 *)
  mk_cfg_item "TpSyncGnssTp1" 0x10050008 TBool; (* 1108 *)
  mk_cfg_item "TpUseLockedTp1" 0x10050009 TBool; (* 1109 *)
  mk_cfg_item "TpAlignToTowTp1" 0x1005000a TBool; (* 1110 *)
  mk_cfg_item "TpPolTp1" 0x1005000b TBool; (* 1111 *)
  mk_cfg_item "TpTimegridTp1" 0x2005000c TAlignment (* 1112 *)
].
