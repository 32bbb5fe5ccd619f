(** The text of the shipped font header. *)
From Coq Require Import String.

(** graphics/GFXFonts/FreeSans15pt7b.h:1-344, the whole file character for character (a quotation mark
    is written twice in a Coq string) *)
Definition FreeSans15pt7b_h : string := "const uint8_t FreeSans15pt7bBitmaps[] = {
  0x00, 0xFF, 0xFF, 0xFF, 0xFF, 0xFF, 0xD2, 0x03, 0xFE, 0xE7, 0xE7, 0xE7,
  0xE7, 0xE7, 0x42, 0x42, 0x03, 0x0C, 0x03, 0x0C, 0x03, 0x1C, 0x07, 0x18,
  0x06, 0x18, 0x3F, 0xFF, 0x3F, 0xFF, 0x06, 0x38, 0x0E, 0x30, 0x0C, 0x30,
  0x0C, 0x30, 0x0C, 0x30, 0xFF, 0xFE, 0xFF, 0xFE, 0x18, 0x60, 0x18, 0x60,
  0x18, 0x60, 0x18, 0x60, 0x18, 0xE0, 0x38, 0xC0, 0x02, 0x00, 0x1F, 0x80,
  0xFF, 0xC3, 0xD3, 0xC7, 0x23, 0x9C, 0x43, 0xB8, 0x87, 0x71, 0x00, 0xE2,
  0x01, 0xE4, 0x01, 0xE8, 0x01, 0xFC, 0x00, 0xFF, 0x00, 0x5F, 0x80, 0x87,
  0x81, 0x07, 0xE2, 0x0F, 0xC4, 0x1F, 0x88, 0x73, 0x93, 0xE3, 0xFF, 0x83,
  0xF8, 0x00, 0x80, 0x01, 0x00, 0x00, 0x00, 0xC0, 0x1E, 0x00, 0xC0, 0x7F,
  0x81, 0x80, 0x61, 0x81, 0x80, 0xC0, 0xC3, 0x00, 0xC0, 0xC3, 0x00, 0xC0,
  0xC6, 0x00, 0xC0, 0xC6, 0x00, 0x61, 0x8C, 0x00, 0x7F, 0x8C, 0x00, 0x1E,
  0x18, 0x00, 0x00, 0x30, 0x78, 0x00, 0x31, 0xFE, 0x00, 0x61, 0x86, 0x00,
  0x63, 0x03, 0x00, 0xC3, 0x03, 0x00, 0xC3, 0x03, 0x01, 0x83, 0x03, 0x01,
  0x81, 0x86, 0x03, 0x01, 0xFE, 0x03, 0x00, 0x78, 0x03, 0x80, 0x0F, 0xE0,
  0x0E, 0xE0, 0x1C, 0x70, 0x1C, 0x70, 0x1C, 0x70, 0x0C, 0xF0, 0x0E, 0xE0,
  0x07, 0xC0, 0x03, 0x00, 0x0F, 0x80, 0x3D, 0xCE, 0x70, 0xCE, 0xF0, 0xEC,
  0xE0, 0x7C, 0xE0, 0x78, 0xE0, 0x38, 0xF0, 0x7C, 0x78, 0xFE, 0x3F, 0xE6,
  0x1F, 0x87, 0xFF, 0xFE, 0x90, 0x06, 0x18, 0x30, 0xC1, 0x86, 0x0C, 0x38,
  0x70, 0xC3, 0x87, 0x0E, 0x1C, 0x38, 0x70, 0xE1, 0xC1, 0x83, 0x87, 0x06,
  0x0E, 0x0C, 0x18, 0x18, 0x18, 0xC0, 0xC1, 0x81, 0x83, 0x03, 0x06, 0x0E,
  0x1C, 0x18, 0x38, 0x70, 0xE1, 0xC3, 0x87, 0x0E, 0x1C, 0x30, 0xE1, 0xC3,
  0x0E, 0x18, 0x20, 0xC3, 0x00, 0x08, 0x04, 0x12, 0x5F, 0xF1, 0xC0, 0xA0,
  0xD8, 0x44, 0x03, 0x00, 0x0C, 0x00, 0x30, 0x00, 0xC0, 0x03, 0x00, 0x0C,
  0x0F, 0xFF, 0xFF, 0xFF, 0x03, 0x00, 0x0C, 0x00, 0x30, 0x00, 0xC0, 0x03,
  0x00, 0x0C, 0x00, 0xFF, 0x92, 0xF0, 0xFF, 0xFC, 0xFF, 0x80, 0x03, 0x03,
  0x02, 0x06, 0x06, 0x04, 0x0C, 0x0C, 0x08, 0x08, 0x18, 0x10, 0x10, 0x30,
  0x30, 0x20, 0x60, 0x60, 0x40, 0xC0, 0xC0, 0x0F, 0xC0, 0x7F, 0x83, 0x87,
  0x1C, 0x0E, 0x70, 0x39, 0xC0, 0xEE, 0x01, 0xF8, 0x07, 0xE0, 0x1F, 0x80,
  0x7E, 0x01, 0xF8, 0x07, 0xE0, 0x1F, 0x80, 0x7E, 0x01, 0xDC, 0x0E, 0x70,
  0x39, 0xC0, 0xE3, 0x87, 0x07, 0xF8, 0x0F, 0xC0, 0x02, 0x0C, 0x18, 0xFF,
  0xFF, 0xC3, 0x87, 0x0E, 0x1C, 0x38, 0x70, 0xE1, 0xC3, 0x87, 0x0E, 0x1C,
  0x38, 0x70, 0xE0, 0x0F, 0xC0, 0xFF, 0xC7, 0x87, 0x9C, 0x0F, 0xE0, 0x1F,
  0x80, 0x7E, 0x01, 0xC0, 0x07, 0x00, 0x3C, 0x00, 0xE0, 0x0F, 0x00, 0x78,
  0x07, 0xC0, 0x3C, 0x01, 0xC0, 0x0E, 0x00, 0x30, 0x01, 0x80, 0x06, 0x00,
  0x1F, 0xFF, 0x7F, 0xFC, 0x1F, 0xC0, 0xFF, 0x87, 0x0F, 0x3C, 0x1E, 0xE0,
  0x3B, 0x80, 0xE0, 0x03, 0x80, 0x0E, 0x00, 0xF0, 0x1F, 0x80, 0x7E, 0x00,
  0x1E, 0x00, 0x3C, 0x00, 0x70, 0x01, 0xF8, 0x07, 0xE0, 0x1D, 0xC0, 0xE7,
  0x87, 0x8F, 0xFC, 0x1F, 0xC0, 0x00, 0xE0, 0x07, 0x00, 0x78, 0x07, 0xC0,
  0x3E, 0x03, 0x70, 0x1B, 0x81, 0x9C, 0x18, 0xE0, 0xC7, 0x0C, 0x38, 0xC1,
  0xC6, 0x0E, 0x60, 0x73, 0xFF, 0xFF, 0xFF, 0x00, 0xE0, 0x07, 0x00, 0x38,
  0x01, 0xC0, 0x0E, 0x00, 0x3F, 0xF8, 0xFF, 0xE3, 0x00, 0x0C, 0x00, 0x30,
  0x00, 0xC0, 0x06, 0x00, 0x19, 0xF0, 0x7F, 0xF1, 0xE1, 0xE7, 0x03, 0x80,
  0x07, 0x00, 0x1C, 0x00, 0x70, 0x01, 0xC0, 0x07, 0xE0, 0x1F, 0xC0, 0xE7,
  0x87, 0x0F, 0xF8, 0x0F, 0xC0, 0x07, 0xC0, 0x7F, 0xC3, 0x87, 0x8C, 0x0E,
  0x70, 0x39, 0x80, 0x0E, 0x00, 0x38, 0x00, 0xE7, 0xC3, 0xFF, 0xCF, 0x87,
  0xBC, 0x0E, 0xE0, 0x1F, 0x80, 0x7E, 0x01, 0xF8, 0x07, 0x60, 0x1D, 0xC0,
  0xE3, 0x87, 0x87, 0xFC, 0x0F, 0xC0, 0xFF, 0xFF, 0xFF, 0xF0, 0x01, 0x80,
  0x0E, 0x00, 0x30, 0x01, 0xC0, 0x06, 0x00, 0x30, 0x01, 0xC0, 0x06, 0x00,
  0x38, 0x00, 0xE0, 0x03, 0x00, 0x1C, 0x00, 0x70, 0x03, 0x80, 0x0E, 0x00,
  0x38, 0x00, 0xC0, 0x07, 0x00, 0x1C, 0x00, 0x07, 0x80, 0x7F, 0x83, 0x87,
  0x1C, 0x0E, 0x70, 0x39, 0xC0, 0xE7, 0x03, 0x9C, 0x0E, 0x38, 0x70, 0x7F,
  0x81, 0xFE, 0x0E, 0x1C, 0x70, 0x3B, 0x80, 0x7E, 0x01, 0xF8, 0x07, 0xE0,
  0x1D, 0xC0, 0xE7, 0x87, 0x8F, 0xFC, 0x0F, 0xC0, 0x0F, 0xC0, 0xFF, 0x87,
  0x87, 0x1C, 0x0E, 0xE0, 0x1B, 0x80, 0x7E, 0x01, 0xF8, 0x07, 0xE0, 0x1D,
  0xC0, 0xF7, 0x87, 0xCF, 0xFF, 0x0F, 0x9C, 0x00, 0x70, 0x01, 0xC0, 0x06,
  0x60, 0x39, 0xC0, 0xC7, 0x87, 0x0F, 0xF8, 0x0F, 0x80, 0xFF, 0x80, 0x00,
  0x00, 0x0F, 0xF8, 0xEE, 0xE0, 0x00, 0x00, 0x00, 0x00, 0x77, 0x71, 0x13,
  0x60, 0x00, 0x04, 0x00, 0x70, 0x07, 0xC0, 0xFC, 0x0F, 0x81, 0xF8, 0x0F,
  0x00, 0x3C, 0x00, 0x7E, 0x00, 0x3E, 0x00, 0x3F, 0x00, 0x1F, 0x00, 0x1C,
  0x00, 0x10, 0xFF, 0xFF, 0xFF, 0xF0, 0x00, 0x00, 0x00, 0x00, 0x03, 0xFF,
  0xFF, 0xFF, 0xC0, 0xC0, 0x01, 0xE0, 0x01, 0xF0, 0x00, 0xFC, 0x00, 0x3E,
  0x00, 0x1F, 0x80, 0x07, 0x80, 0x0F, 0x00, 0xF8, 0x07, 0xC0, 0x7E, 0x03,
  0xE0, 0x0F, 0x00, 0x18, 0x00, 0x00, 0x0F, 0xC1, 0xFF, 0x1C, 0x1D, 0xE0,
  0x7E, 0x03, 0xF0, 0x1C, 0x00, 0xE0, 0x0F, 0x00, 0x70, 0x07, 0x00, 0x70,
  0x07, 0x00, 0x70, 0x03, 0x80, 0x1C, 0x00, 0x00, 0x00, 0x00, 0x00, 0x01,
  0xC0, 0x0E, 0x00, 0x70, 0x00, 0x00, 0x1F, 0xE0, 0x00, 0x1F, 0xFF, 0x00,
  0x0F, 0x81, 0xF8, 0x03, 0xC0, 0x07, 0x80, 0xE0, 0x00, 0x78, 0x38, 0x00,
  0x07, 0x8E, 0x03, 0xC0, 0x71, 0xC1, 0xFD, 0xCF, 0x70, 0x78, 0xF0, 0xEE,
  0x1E, 0x0E, 0x1F, 0x83, 0x81, 0xC3, 0xF0, 0xE0, 0x30, 0x7E, 0x1C, 0x06,
  0x0F, 0xC3, 0x81, 0xC3, 0xF8, 0x70, 0x30, 0x77, 0x0E, 0x0E, 0x1E, 0xF0,
  0xE3, 0xC7, 0x8E, 0x1F, 0xDF, 0xE1, 0xE0, 0xF1, 0xF0, 0x1E, 0x00, 0x00,
  0x01, 0xE0, 0x00, 0x00, 0x1E, 0x00, 0x00, 0x01, 0xF0, 0x18, 0x00, 0x0F,
  0xFF, 0x80, 0x00, 0x3F, 0xC0, 0x00, 0x00, 0xF0, 0x00, 0x3E, 0x00, 0x07,
  0xC0, 0x00, 0xDC, 0x00, 0x3B, 0x80, 0x07, 0x30, 0x00, 0xC7, 0x00, 0x38,
  0xE0, 0x07, 0x0C, 0x00, 0xC1, 0xC0, 0x38, 0x38, 0x06, 0x03, 0x81, 0xFF,
  0xF0, 0x3F, 0xFE, 0x06, 0x00, 0xE1, 0xC0, 0x1C, 0x38, 0x03, 0x86, 0x00,
  0x39, 0xC0, 0x07, 0x38, 0x00, 0xE6, 0x00, 0x0E, 0xFF, 0xF0, 0xFF, 0xF8,
  0xE0, 0x3C, 0xE0, 0x1E, 0xE0, 0x0E, 0xE0, 0x0E, 0xE0, 0x0E, 0xE0, 0x1C,
  0xE0, 0x3C, 0xFF, 0xF0, 0xFF, 0xF8, 0xE0, 0x1E, 0xE0, 0x0E, 0xE0, 0x07,
  0xE0, 0x07, 0xE0, 0x07, 0xE0, 0x07, 0xE0, 0x0F, 0xE0, 0x1E, 0xFF, 0xFC,
  0xFF, 0xF8, 0x01, 0xFC, 0x01, 0xFF, 0xE0, 0x78, 0x1E, 0x1E, 0x00, 0xE3,
  0x80, 0x1E, 0xE0, 0x01, 0xDC, 0x00, 0x07, 0x00, 0x00, 0xE0, 0x00, 0x1C,
  0x00, 0x03, 0x80, 0x00, 0x70, 0x00, 0x0E, 0x00, 0x01, 0xC0, 0x01, 0xDC,
  0x00, 0x3B, 0x80, 0x0E, 0x78, 0x01, 0xC7, 0x80, 0x78, 0x7C, 0x1E, 0x07,
  0xFF, 0x80, 0x1F, 0xC0, 0xFF, 0xE0, 0x7F, 0xFC, 0x38, 0x0F, 0x9C, 0x01,
  0xCE, 0x00, 0x77, 0x00, 0x3B, 0x80, 0x1F, 0xC0, 0x07, 0xE0, 0x03, 0xF0,
  0x01, 0xF8, 0x00, 0xFC, 0x00, 0x7E, 0x00, 0x3F, 0x00, 0x1F, 0x80, 0x1F,
  0xC0, 0x0E, 0xE0, 0x07, 0x70, 0x07, 0x38, 0x0F, 0x1F, 0xFF, 0x0F, 0xFF,
  0x00, 0xFF, 0xFD, 0xFF, 0xFB, 0x80, 0x07, 0x00, 0x0E, 0x00, 0x1C, 0x00,
  0x38, 0x00, 0x70, 0x00, 0xE0, 0x01, 0xFF, 0xFB, 0xFF, 0xF7, 0x00, 0x0E,
  0x00, 0x1C, 0x00, 0x38, 0x00, 0x70, 0x00, 0xE0, 0x01, 0xC0, 0x03, 0x80,
  0x07, 0xFF, 0xFF, 0xFF, 0xE0, 0xFF, 0xFF, 0xFF, 0xFE, 0x00, 0x38, 0x00,
  0xE0, 0x03, 0x80, 0x0E, 0x00, 0x38, 0x00, 0xE0, 0x03, 0xFF, 0xCF, 0xFF,
  0x38, 0x00, 0xE0, 0x03, 0x80, 0x0E, 0x00, 0x38, 0x00, 0xE0, 0x03, 0x80,
  0x0E, 0x00, 0x38, 0x00, 0xE0, 0x00, 0x01, 0xFE, 0x00, 0x7F, 0xF8, 0x1F,
  0x03, 0xC3, 0xC0, 0x1E, 0x38, 0x00, 0xF7, 0x00, 0x07, 0x70, 0x00, 0x0E,
  0x00, 0x00, 0xE0, 0x00, 0x0E, 0x00, 0x00, 0xE0, 0x0F, 0xFE, 0x00, 0xFF,
  0xE0, 0x00, 0x7E, 0x00, 0x07, 0x70, 0x00, 0x77, 0x00, 0x0F, 0x38, 0x00,
  0xF3, 0xC0, 0x1F, 0x1F, 0x07, 0xF0, 0x7F, 0xE3, 0x01, 0xF8, 0x10, 0xE0,
  0x03, 0xF0, 0x01, 0xF8, 0x00, 0xFC, 0x00, 0x7E, 0x00, 0x3F, 0x00, 0x1F,
  0x80, 0x0F, 0xC0, 0x07, 0xE0, 0x03, 0xFF, 0xFF, 0xFF, 0xFF, 0xFC, 0x00,
  0x7E, 0x00, 0x3F, 0x00, 0x1F, 0x80, 0x0F, 0xC0, 0x07, 0xE0, 0x03, 0xF0,
  0x01, 0xF8, 0x00, 0xFC, 0x00, 0x7E, 0x00, 0x38, 0xFF, 0xFF, 0xFF, 0xFF,
  0xFF, 0xFF, 0xFF, 0xFE, 0x00, 0x70, 0x07, 0x00, 0x70, 0x07, 0x00, 0x70,
  0x07, 0x00, 0x70, 0x07, 0x00, 0x70, 0x07, 0x00, 0x70, 0x07, 0x00, 0x70,
  0x07, 0xE0, 0x7E, 0x07, 0xE0, 0x7E, 0x0F, 0x70, 0xE7, 0xFC, 0x1F, 0x80,
  0xE0, 0x07, 0xF0, 0x07, 0xB8, 0x07, 0x9C, 0x07, 0x8E, 0x07, 0x87, 0x07,
  0x03, 0x87, 0x01, 0xC7, 0x00, 0xE7, 0x00, 0x77, 0xC0, 0x3F, 0x70, 0x1F,
  0x38, 0x0F, 0x0E, 0x07, 0x03, 0x83, 0x81, 0xE1, 0xC0, 0x70, 0xE0, 0x1C,
  0x70, 0x0F, 0x38, 0x03, 0x9C, 0x00, 0xEE, 0x00, 0x38, 0xE0, 0x07, 0x00,
  0x38, 0x01, 0xC0, 0x0E, 0x00, 0x70, 0x03, 0x80, 0x1C, 0x00, 0xE0, 0x07,
  0x00, 0x38, 0x01, 0xC0, 0x0E, 0x00, 0x70, 0x03, 0x80, 0x1C, 0x00, 0xE0,
  0x07, 0x00, 0x38, 0x01, 0xFF, 0xFF, 0xFF, 0x80, 0xF0, 0x00, 0x7F, 0xC0,
  0x07, 0xFE, 0x00, 0x3F, 0xF0, 0x01, 0xFF, 0xC0, 0x1F, 0xF6, 0x00, 0xDF,
  0xB0, 0x06, 0xFD, 0xC0, 0x77, 0xE6, 0x03, 0x3F, 0x38, 0x19, 0xF9, 0xC1,
  0xCF, 0xC6, 0x0C, 0x7E, 0x38, 0x63, 0xF1, 0xC7, 0x1F, 0x86, 0x30, 0xFC,
  0x3B, 0x87, 0xE0, 0xDC, 0x3F, 0x06, 0xC1, 0xF8, 0x3E, 0x0F, 0xC0, 0xE0,
  0x7E, 0x07, 0x03, 0x80, 0xF0, 0x03, 0xF8, 0x01, 0xFE, 0x00, 0xFF, 0x80,
  0x7F, 0xC0, 0x3F, 0x70, 0x1F, 0x98, 0x0F, 0xCE, 0x07, 0xE3, 0x83, 0xF1,
  0xC1, 0xF8, 0x70, 0xFC, 0x18, 0x7E, 0x0E, 0x3F, 0x03, 0x9F, 0x80, 0xCF,
  0xC0, 0x77, 0xE0, 0x1F, 0xF0, 0x0F, 0xF8, 0x03, 0xFC, 0x00, 0xFE, 0x00,
  0x78, 0x01, 0xFC, 0x00, 0x3F, 0xF8, 0x07, 0xC1, 0xF0, 0x78, 0x03, 0xC3,
  0x80, 0x0E, 0x38, 0x00, 0x39, 0xC0, 0x01, 0xDC, 0x00, 0x07, 0xE0, 0x00,
  0x3F, 0x00, 0x01, 0xF8, 0x00, 0x0F, 0xC0, 0x00, 0x7E, 0x00, 0x03, 0xF0,
  0x00, 0x1D, 0xC0, 0x01, 0xCE, 0x00, 0x0E, 0x38, 0x00, 0xE1, 0xE0, 0x0F,
  0x07, 0xC1, 0xF0, 0x0F, 0xFE, 0x00, 0x1F, 0xC0, 0x00, 0xFF, 0xF0, 0xFF,
  0xFC, 0xE0, 0x1E, 0xE0, 0x0F, 0xE0, 0x07, 0xE0, 0x07, 0xE0, 0x07, 0xE0,
  0x07, 0xE0, 0x0F, 0xE0, 0x1E, 0xFF, 0xFC, 0xFF, 0xF8, 0xE0, 0x00, 0xE0,
  0x00, 0xE0, 0x00, 0xE0, 0x00, 0xE0, 0x00, 0xE0, 0x00, 0xE0, 0x00, 0xE0,
  0x00, 0xE0, 0x00, 0x01, 0xFC, 0x00, 0x3F, 0xF8, 0x07, 0xC1, 0xF0, 0x78,
  0x03, 0xC3, 0x80, 0x0E, 0x38, 0x00, 0x39, 0xC0, 0x01, 0xDC, 0x00, 0x07,
  0xE0, 0x00, 0x3F, 0x00, 0x01, 0xF8, 0x00, 0x0F, 0xC0, 0x00, 0x7E, 0x00,
  0x03, 0xF0, 0x00, 0x1D, 0xC0, 0x01, 0xCE, 0x00, 0x8E, 0x38, 0x0E, 0xE1,
  0xE0, 0x3F, 0x07, 0xC1, 0xF0, 0x0F, 0xFF, 0xC0, 0x1F, 0xC7, 0x00, 0x00,
  0x18, 0x00, 0x00, 0x00, 0xFF, 0xF8, 0x7F, 0xFE, 0x38, 0x07, 0x9C, 0x01,
  0xEE, 0x00, 0x77, 0x00, 0x3B, 0x80, 0x1D, 0xC0, 0x0E, 0xE0, 0x0E, 0x70,
  0x0F, 0x3F, 0xFE, 0x1F, 0xFF, 0x8E, 0x00, 0xE7, 0x00, 0x3B, 0x80, 0x1D,
  0xC0, 0x0E, 0xE0, 0x07, 0x70, 0x03, 0xB8, 0x01, 0xDC, 0x00, 0xEE, 0x00,
  0x78, 0x07, 0xF0, 0x0F, 0xFE, 0x0F, 0x07, 0x8F, 0x01, 0xC7, 0x00, 0x73,
  0x80, 0x39, 0xC0, 0x00, 0xF0, 0x00, 0x3E, 0x00, 0x0F, 0xF0, 0x01, 0xFF,
  0x00, 0x1F, 0xE0, 0x00, 0xF0, 0x00, 0x3F, 0x80, 0x0F, 0xC0, 0x07, 0xF0,
  0x03, 0xB8, 0x03, 0x8F, 0x03, 0xC3, 0xFF, 0xC0, 0x7F, 0x00, 0xFF, 0xFF,
  0xFF, 0xFC, 0x0E, 0x00, 0x1C, 0x00, 0x38, 0x00, 0x70, 0x00, 0xE0, 0x01,
  0xC0, 0x03, 0x80, 0x07, 0x00, 0x0E, 0x00, 0x1C, 0x00, 0x38, 0x00, 0x70,
  0x00, 0xE0, 0x01, 0xC0, 0x03, 0x80, 0x07, 0x00, 0x0E, 0x00, 0x1C, 0x00,
  0x38, 0x00, 0xE0, 0x03, 0xF0, 0x01, 0xF8, 0x00, 0xFC, 0x00, 0x7E, 0x00,
  0x3F, 0x00, 0x1F, 0x80, 0x0F, 0xC0, 0x07, 0xE0, 0x03, 0xF0, 0x01, 0xF8,
  0x00, 0xFC, 0x00, 0x7E, 0x00, 0x3F, 0x00, 0x1F, 0x80, 0x0F, 0xC0, 0x07,
  0xE0, 0x03, 0xB8, 0x03, 0x9F, 0x07, 0x83, 0xFF, 0x80, 0x7F, 0x00, 0x70,
  0x01, 0xDC, 0x00, 0x77, 0x00, 0x18, 0xE0, 0x0E, 0x38, 0x03, 0x8E, 0x00,
  0xC1, 0xC0, 0x70, 0x70, 0x1C, 0x0C, 0x06, 0x03, 0x83, 0x80, 0xE0, 0xE0,
  0x18, 0x30, 0x07, 0x1C, 0x01, 0xC7, 0x00, 0x31, 0x80, 0x0E, 0xE0, 0x03,
  0xB8, 0x00, 0x6C, 0x00, 0x1F, 0x00, 0x07, 0x80, 0x00, 0xE0, 0x00, 0x70,
  0x0E, 0x00, 0xEE, 0x01, 0xC0, 0x39, 0xC0, 0x7C, 0x07, 0x38, 0x0D, 0x80,
  0xE3, 0x81, 0xB0, 0x1C, 0x70, 0x37, 0x07, 0x0E, 0x0C, 0xE0, 0xE1, 0xC1,
  0x8C, 0x1C, 0x18, 0x31, 0x83, 0x83, 0x86, 0x38, 0x60, 0x71, 0x87, 0x1C,
  0x0E, 0x30, 0x63, 0x80, 0xC6, 0x0E, 0x70, 0x1D, 0xC1, 0xCC, 0x03, 0xB0,
  0x1B, 0x80, 0x76, 0x03, 0x70, 0x06, 0xC0, 0x7E, 0x00, 0xF0, 0x0F, 0x80,
  0x1E, 0x00, 0xF0, 0x01, 0xC0, 0x1E, 0x00, 0x38, 0x03, 0xC0, 0x78, 0x01,
  0xC7, 0x00, 0x70, 0x70, 0x1E, 0x0E, 0x03, 0x80, 0xE0, 0xE0, 0x0E, 0x38,
  0x01, 0xC7, 0x00, 0x1D, 0xC0, 0x01, 0xF0, 0x00, 0x3E, 0x00, 0x03, 0x80,
  0x00, 0xF8, 0x00, 0x3B, 0x80, 0x07, 0x70, 0x01, 0xC7, 0x00, 0x70, 0x70,
  0x0E, 0x0E, 0x03, 0x80, 0xE0, 0xE0, 0x0E, 0x3C, 0x01, 0xE7, 0x00, 0x1C,
  0xF0, 0x01, 0xEE, 0x00, 0x39, 0xE0, 0x0E, 0x1C, 0x01, 0xC1, 0xC0, 0x70,
  0x3C, 0x1E, 0x03, 0x83, 0x80, 0x38, 0xE0, 0x07, 0x1C, 0x00, 0x77, 0x00,
  0x07, 0xC0, 0x00, 0xF8, 0x00, 0x0E, 0x00, 0x01, 0xC0, 0x00, 0x38, 0x00,
  0x07, 0x00, 0x00, 0xE0, 0x00, 0x1C, 0x00, 0x03, 0x80, 0x00, 0x70, 0x00,
  0x0E, 0x00, 0x7F, 0xFF, 0x7F, 0xFF, 0x00, 0x0F, 0x00, 0x1E, 0x00, 0x1C,
  0x00, 0x38, 0x00, 0x78, 0x00, 0xF0, 0x00, 0xE0, 0x01, 0xC0, 0x03, 0xC0,
  0x07, 0x80, 0x07, 0x00, 0x0E, 0x00, 0x1E, 0x00, 0x3C, 0x00, 0x38, 0x00,
  0x70, 0x00, 0xF0, 0x00, 0xFF, 0xFF, 0xFF, 0xFF, 0xFF, 0xF9, 0xCE, 0x73,
  0x9C, 0xE7, 0x39, 0xCE, 0x73, 0x9C, 0xE7, 0x39, 0xCE, 0x73, 0x9C, 0xE7,
  0xFE, 0xC0, 0xC0, 0x40, 0x60, 0x60, 0x20, 0x30, 0x30, 0x10, 0x10, 0x18,
  0x08, 0x08, 0x0C, 0x0C, 0x04, 0x06, 0x06, 0x02, 0x03, 0x03, 0xFF, 0xCE,
  0x73, 0x9C, 0xE7, 0x39, 0xCE, 0x73, 0x9C, 0xE7, 0x39, 0xCE, 0x73, 0x9C,
  0xE7, 0x3F, 0xFE, 0x0E, 0x01, 0xC0, 0x3C, 0x0D, 0x81, 0x98, 0x73, 0x0C,
  0x61, 0x86, 0x60, 0xCC, 0x0F, 0x81, 0x80, 0xFF, 0xFF, 0xC0, 0x70, 0xC1,
  0x83, 0x0F, 0xE0, 0x7F, 0xE1, 0xE1, 0xE3, 0x81, 0xC0, 0x03, 0x80, 0x07,
  0x01, 0xFE, 0x1F, 0xFC, 0x7C, 0x39, 0xC0, 0x73, 0x80, 0xE7, 0x03, 0xCF,
  0x0F, 0x8F, 0xF7, 0xC7, 0xC7, 0x80, 0xE0, 0x03, 0x80, 0x0E, 0x00, 0x38,
  0x00, 0xE0, 0x03, 0x80, 0x0E, 0x7C, 0x3B, 0xFC, 0xF8, 0x7B, 0xC0, 0xEF,
  0x03, 0xF8, 0x07, 0xE0, 0x1F, 0x80, 0x7E, 0x01, 0xF8, 0x07, 0xF0, 0x3F,
  0xC0, 0xEF, 0x87, 0x3B, 0xFC, 0xE7, 0xC0, 0x0F, 0xC1, 0xFF, 0x1E, 0x3C,
  0xE0, 0xEE, 0x03, 0xF0, 0x03, 0x80, 0x1C, 0x00, 0xE0, 0x07, 0x00, 0x38,
  0x0E, 0xE0, 0xF7, 0x87, 0x1F, 0xF0, 0x3F, 0x00, 0x00, 0x1C, 0x00, 0x70,
  0x01, 0xC0, 0x07, 0x00, 0x1C, 0x00, 0x70, 0xF9, 0xCF, 0xFF, 0x78, 0x7D,
  0xC0, 0xFF, 0x03, 0xF8, 0x07, 0xE0, 0x1F, 0x80, 0x7E, 0x01, 0xF8, 0x07,
  0xF0, 0x3D, 0xC0, 0xF7, 0x87, 0xCF, 0xFB, 0x0F, 0xCC, 0x0F, 0xC0, 0xFF,
  0xC7, 0x87, 0x9C, 0x0E, 0xE0, 0x1F, 0x80, 0x7F, 0xFF, 0xFF, 0xFF, 0xE0,
  0x03, 0x80, 0x0E, 0x01, 0xDC, 0x0E, 0x78, 0x78, 0xFF, 0xC0, 0xFC, 0x00,
  0x3B, 0xDC, 0xE7, 0x3B, 0xFF, 0x73, 0x9C, 0xE7, 0x39, 0xCE, 0x73, 0x9C,
  0xE7, 0x00, 0x0F, 0x9C, 0xFF, 0x77, 0x87, 0xDC, 0x0F, 0xE0, 0x3F, 0x80,
  0x7E, 0x01, 0xF8, 0x07, 0xE0, 0x1F, 0x80, 0x7E, 0x03, 0xDC, 0x0F, 0x78,
  0x7C, 0xFF, 0x70, 0xF9, 0xC0, 0x07, 0x00, 0x1F, 0x80, 0xEF, 0x07, 0x9F,
  0xFC, 0x1F, 0xC0, 0xE0, 0x0E, 0x00, 0xE0, 0x0E, 0x00, 0xE0, 0x0E, 0x00,
  0xE7, 0xCE, 0xFE, 0xF8, 0xFF, 0x07, 0xE0, 0x7E, 0x07, 0xE0, 0x7E, 0x07,
  0xE0, 0x7E, 0x07, 0xE0, 0x7E, 0x07, 0xE0, 0x7E, 0x07, 0xE0, 0x70, 0xFF,
  0x80, 0x3F, 0xFF, 0xFF, 0xFF, 0xFF, 0xFE, 0x1C, 0x71, 0xC0, 0x00, 0x01,
  0xC7, 0x1C, 0x71, 0xC7, 0x1C, 0x71, 0xC7, 0x1C, 0x71, 0xC7, 0x1C, 0x71,
  0xC7, 0x1F, 0xFF, 0x00, 0xE0, 0x07, 0x00, 0x38, 0x01, 0xC0, 0x0E, 0x00,
  0x70, 0x03, 0x81, 0xDC, 0x1C, 0xE1, 0xC7, 0x1C, 0x39, 0xC1, 0xDC, 0x0F,
  0xF0, 0x7D, 0xC3, 0xCE, 0x1C, 0x38, 0xE0, 0xE7, 0x07, 0x38, 0x1D, 0xC0,
  0x7E, 0x03, 0x80, 0xFF, 0xFF, 0xFF, 0xFF, 0xFF, 0xFF, 0xFF, 0xFE, 0xE7,
  0xC7, 0xCE, 0xFE, 0xFE, 0xF8, 0xF8, 0xFF, 0x07, 0x87, 0xE0, 0x70, 0x7E,
  0x07, 0x07, 0xE0, 0x70, 0x7E, 0x07, 0x07, 0xE0, 0x70, 0x7E, 0x07, 0x07,
  0xE0, 0x70, 0x7E, 0x07, 0x07, 0xE0, 0x70, 0x7E, 0x07, 0x07, 0xE0, 0x70,
  0x70, 0xE7, 0xCE, 0xFE, 0xF8, 0xFF, 0x07, 0xE0, 0x7E, 0x07, 0xE0, 0x7E,
  0x07, 0xE0, 0x7E, 0x07, 0xE0, 0x7E, 0x07, 0xE0, 0x7E, 0x07, 0xE0, 0x70,
  0x0F, 0xC0, 0xFF, 0xC7, 0x87, 0x9C, 0x0E, 0xF0, 0x3F, 0x80, 0x7E, 0x01,
  0xF8, 0x07, 0xE0, 0x1F, 0x80, 0x7F, 0x03, 0xDC, 0x0E, 0x78, 0x78, 0xFF,
  0xC0, 0xFC, 0x00, 0xE7, 0xC3, 0xBF, 0xCF, 0x87, 0xBC, 0x0E, 0xF0, 0x3F,
  0x80, 0x7E, 0x01, 0xF8, 0x07, 0xE0, 0x1F, 0x80, 0x7F, 0x03, 0xFC, 0x0E,
  0xF8, 0x7B, 0xFF, 0xCE, 0x7C, 0x38, 0x00, 0xE0, 0x03, 0x80, 0x0E, 0x00,
  0x38, 0x00, 0x0F, 0xCC, 0xFF, 0xB7, 0x87, 0xDC, 0x0F, 0xF0, 0x3F, 0x80,
  0x7E, 0x01, 0xF8, 0x07, 0xE0, 0x1F, 0x80, 0x7F, 0x03, 0xDC, 0x0F, 0x78,
  0x7C, 0xFF, 0x70, 0xF9, 0xC0, 0x07, 0x00, 0x1C, 0x00, 0x70, 0x01, 0xC0,
  0x07, 0xE7, 0xEF, 0xF8, 0xF0, 0xE0, 0xE0, 0xE0, 0xE0, 0xE0, 0xE0, 0xE0,
  0xE0, 0xE0, 0xE0, 0xE0, 0x1F, 0x83, 0xFF, 0x3C, 0x3D, 0xC0, 0xEE, 0x00,
  0x78, 0x01, 0xF0, 0x07, 0xF8, 0x03, 0xF0, 0x03, 0xF8, 0x0F, 0xC0, 0x77,
  0x07, 0x3F, 0xF8, 0x7F, 0x00, 0x73, 0x9C, 0xEF, 0xFD, 0xCE, 0x73, 0x9C,
  0xE7, 0x39, 0xCE, 0x73, 0xCE, 0xE0, 0x7E, 0x07, 0xE0, 0x7E, 0x07, 0xE0,
  0x7E, 0x07, 0xE0, 0x7E, 0x07, 0xE0, 0x7E, 0x07, 0xE0, 0x7E, 0x0F, 0xF1,
  0xF7, 0xF7, 0x3E, 0x70, 0xE0, 0x1D, 0xC0, 0x77, 0x03, 0x8C, 0x0E, 0x38,
  0x30, 0xE1, 0xC1, 0x87, 0x07, 0x18, 0x1C, 0xE0, 0x33, 0x00, 0xEC, 0x03,
  0xF0, 0x07, 0x80, 0x1E, 0x00, 0x70, 0x00, 0xE0, 0x70, 0x3B, 0x03, 0x81,
  0x9C, 0x3E, 0x1C, 0xE1, 0xF0, 0xE3, 0x0D, 0x86, 0x18, 0x6C, 0x30, 0xE7,
  0x73, 0x83, 0x33, 0x98, 0x19, 0x8C, 0xC0, 0xEC, 0x6E, 0x07, 0xE3, 0xF0,
  0x1E, 0x0F, 0x00, 0xF0, 0x78, 0x07, 0x83, 0xC0, 0x1C, 0x1C, 0x00, 0x70,
  0x38, 0xC0, 0xC3, 0x87, 0x07, 0x38, 0x0C, 0xC0, 0x3F, 0x00, 0x78, 0x00,
  0xC0, 0x07, 0x80, 0x3F, 0x01, 0xCC, 0x06, 0x38, 0x38, 0x71, 0xC0, 0xE6,
  0x03, 0x80, 0xE0, 0x19, 0x80, 0xE7, 0x03, 0x9C, 0x0C, 0x30, 0x70, 0xE1,
  0x83, 0x86, 0x06, 0x38, 0x1C, 0xC0, 0x77, 0x00, 0xDC, 0x03, 0xE0, 0x07,
  0x80, 0x1C, 0x00, 0x70, 0x01, 0xC0, 0x06, 0x00, 0x38, 0x00, 0xE0, 0x1F,
  0x00, 0x78, 0x00, 0xFF, 0xFF, 0xFF, 0x00, 0x60, 0x0E, 0x01, 0xC0, 0x38,
  0x07, 0x00, 0xE0, 0x0E, 0x01, 0xC0, 0x38, 0x07, 0x00, 0xE0, 0x0F, 0xFF,
  0xFF, 0xF0, 0x1C, 0xF3, 0x8E, 0x38, 0xE3, 0x8E, 0x38, 0xE3, 0x9E, 0xF3,
  0x8F, 0x1E, 0x38, 0xE3, 0x8E, 0x38, 0xE3, 0x8E, 0x38, 0xF1, 0xC0, 0xFF,
  0xFF, 0xFF, 0xE0, 0xE3, 0xC7, 0x1C, 0x71, 0xC7, 0x1C, 0x71, 0xC7, 0x1E,
  0x3C, 0x73, 0xDE, 0x71, 0xC7, 0x1C, 0x71, 0xC7, 0x1C, 0x73, 0xCE, 0x00,
  0x70, 0x0F, 0xC1, 0xCF, 0x18, 0x3F, 0x01, 0xE0 };

const GFXglyph FreeSans15pt7bGlyphs[] = {
  {     0, {   1,   1 },   7, {    0,    0 } },   // 0x20 ' '
  {     1, {   3,  21 },  10, {    4,  -20 } },   // 0x21 '!'
  {     9, {   8,   7 },  10, {    1,  -20 } },   // 0x22 '""'
  {    16, {  16,  20 },  16, {    0,  -19 } },   // 0x23 '#'
  {    56, {  15,  24 },  16, {    1,  -21 } },   // 0x24 '$'
  {   101, {  24,  21 },  26, {    1,  -20 } },   // 0x25 '%'
  {   164, {  16,  21 },  19, {    2,  -20 } },   // 0x26 '&'
  {   206, {   3,   7 },   6, {    2,  -20 } },   // 0x27 '''
  {   209, {   7,  27 },  10, {    2,  -20 } },   // 0x28 '('
  {   233, {   7,  27 },  10, {    1,  -20 } },   // 0x29 ')'
  {   257, {   9,   8 },  11, {    1,  -20 } },   // 0x2A '*'
  {   266, {  14,  14 },  17, {    1,  -13 } },   // 0x2B '+'
  {   291, {   3,   7 },   8, {    3,   -2 } },   // 0x2C ','
  {   294, {   7,   2 },  10, {    1,   -8 } },   // 0x2D '-'
  {   296, {   3,   3 },   7, {    2,   -2 } },   // 0x2E '.'
  {   298, {   8,  21 },   8, {    0,  -20 } },   // 0x2F '/'
  {   319, {  14,  21 },  16, {    1,  -20 } },   // 0x30 '0'
  {   356, {   7,  21 },  17, {    4,  -20 } },   // 0x31 '1'
  {   375, {  14,  21 },  16, {    1,  -20 } },   // 0x32 '2'
  {   412, {  14,  21 },  16, {    1,  -20 } },   // 0x33 '3'
  {   449, {  13,  21 },  16, {    1,  -20 } },   // 0x34 '4'
  {   484, {  14,  21 },  16, {    1,  -20 } },   // 0x35 '5'
  {   521, {  14,  21 },  16, {    1,  -20 } },   // 0x36 '6'
  {   558, {  14,  21 },  16, {    1,  -20 } },   // 0x37 '7'
  {   595, {  14,  21 },  16, {    1,  -20 } },   // 0x38 '8'
  {   632, {  14,  21 },  16, {    1,  -20 } },   // 0x39 '9'
  {   669, {   3,  15 },   7, {    2,  -14 } },   // 0x3A ':'
  {   675, {   4,  19 },   7, {    2,  -14 } },   // 0x3B ';'
  {   685, {  14,  14 },  17, {    1,  -13 } },   // 0x3C '<'
  {   710, {  14,   7 },  17, {    1,   -9 } },   // 0x3D '='
  {   723, {  15,  14 },  17, {    1,  -13 } },   // 0x3E '>'
  {   750, {  13,  21 },  16, {    2,  -20 } },   // 0x3F '?'
  {   785, {  27,  25 },  29, {    1,  -20 } },   // 0x40 '@'
  {   870, {  19,  21 },  19, {    0,  -20 } },   // 0x41 'A'
  {   920, {  16,  21 },  19, {    2,  -20 } },   // 0x42 'B'
  {   962, {  19,  21 },  21, {    1,  -20 } },   // 0x43 'C'
  {  1012, {  17,  21 },  20, {    2,  -20 } },   // 0x44 'D'
  {  1057, {  15,  21 },  18, {    2,  -20 } },   // 0x45 'E'
  {  1097, {  14,  21 },  17, {    2,  -20 } },   // 0x46 'F'
  {  1134, {  20,  21 },  22, {    1,  -20 } },   // 0x47 'G'
  {  1187, {  17,  21 },  21, {    2,  -20 } },   // 0x48 'H'
  {  1232, {   3,  21 },   8, {    3,  -20 } },   // 0x49 'I'
  {  1240, {  12,  21 },  15, {    1,  -20 } },   // 0x4A 'J'
  {  1272, {  17,  21 },  20, {    2,  -20 } },   // 0x4B 'K'
  {  1317, {  13,  21 },  16, {    2,  -20 } },   // 0x4C 'L'
  {  1352, {  21,  21 },  25, {    2,  -20 } },   // 0x4D 'M'
  {  1408, {  17,  21 },  21, {    2,  -20 } },   // 0x4E 'N'
  {  1453, {  21,  21 },  23, {    1,  -20 } },   // 0x4F 'O'
  {  1509, {  16,  21 },  19, {    2,  -20 } },   // 0x50 'P'
  {  1551, {  21,  23 },  23, {    1,  -20 } },   // 0x51 'Q'
  {  1612, {  17,  21 },  21, {    2,  -20 } },   // 0x52 'R'
  {  1657, {  17,  21 },  19, {    1,  -20 } },   // 0x53 'S'
  {  1702, {  15,  21 },  18, {    2,  -20 } },   // 0x54 'T'
  {  1742, {  17,  21 },  21, {    2,  -20 } },   // 0x55 'U'
  {  1787, {  18,  21 },  19, {    0,  -20 } },   // 0x56 'V'
  {  1835, {  27,  21 },  27, {    0,  -20 } },   // 0x57 'W'
  {  1906, {  19,  21 },  19, {    0,  -20 } },   // 0x58 'X'
  {  1956, {  19,  21 },  20, {    1,  -20 } },   // 0x59 'Y'
  {  2006, {  16,  21 },  18, {    1,  -20 } },   // 0x5A 'Z'
  {  2048, {   5,  27 },   8, {    2,  -20 } },   // 0x5B '['
  {  2065, {   8,  21 },   8, {    0,  -20 } },   // 0x5C '\'
  {  2086, {   5,  27 },   8, {    1,  -20 } },   // 0x5D ']'
  {  2103, {  11,  11 },  14, {    1,  -20 } },   // 0x5E '^'
  {  2119, {  18,   1 },  16, {   -1,    5 } },   // 0x5F '_'
  {  2122, {   6,   4 },   7, {    1,  -20 } },   // 0x60 '`'
  {  2125, {  15,  15 },  16, {    1,  -14 } },   // 0x61 'a'
  {  2154, {  14,  21 },  16, {    2,  -20 } },   // 0x62 'b'
  {  2191, {  13,  15 },  15, {    1,  -14 } },   // 0x63 'c'
  {  2216, {  14,  21 },  16, {    1,  -20 } },   // 0x64 'd'
  {  2253, {  14,  15 },  15, {    1,  -14 } },   // 0x65 'e'
  {  2280, {   5,  21 },   8, {    2,  -20 } },   // 0x66 'f'
  {  2294, {  14,  21 },  16, {    1,  -14 } },   // 0x67 'g'
  {  2331, {  12,  21 },  16, {    2,  -20 } },   // 0x68 'h'
  {  2363, {   3,  21 },   6, {    2,  -20 } },   // 0x69 'i'
  {  2371, {   6,  27 },   7, {    0,  -20 } },   // 0x6A 'j'
  {  2392, {  13,  21 },  15, {    2,  -20 } },   // 0x6B 'k'
  {  2427, {   3,  21 },   6, {    2,  -20 } },   // 0x6C 'l'
  {  2435, {  20,  15 },  24, {    2,  -14 } },   // 0x6D 'm'
  {  2473, {  12,  15 },  16, {    2,  -14 } },   // 0x6E 'n'
  {  2496, {  14,  15 },  15, {    1,  -14 } },   // 0x6F 'o'
  {  2523, {  14,  20 },  16, {    2,  -14 } },   // 0x70 'p'
  {  2558, {  14,  20 },  16, {    1,  -14 } },   // 0x71 'q'
  {  2593, {   8,  15 },  10, {    2,  -14 } },   // 0x72 'r'
  {  2608, {  13,  15 },  14, {    1,  -14 } },   // 0x73 's'
  {  2633, {   5,  19 },   8, {    2,  -18 } },   // 0x74 't'
  {  2645, {  12,  15 },  16, {    2,  -14 } },   // 0x75 'u'
  {  2668, {  14,  15 },  14, {    0,  -14 } },   // 0x76 'v'
  {  2695, {  21,  15 },  21, {    0,  -14 } },   // 0x77 'w'
  {  2735, {  14,  15 },  14, {    0,  -14 } },   // 0x78 'x'
  {  2762, {  14,  21 },  14, {    0,  -14 } },   // 0x79 'y'
  {  2799, {  12,  15 },  14, {    1,  -14 } },   // 0x7A 'z'
  {  2822, {   6,  27 },  10, {    2,  -20 } },   // 0x7B '{'
  {  2843, {   1,  27 },   7, {    3,  -20 } },   // 0x7C '|'
  {  2847, {   6,  27 },  10, {    3,  -20 } },   // 0x7D '}'
  {  2868, {  12,   5 },  14, {    1,  -12 } } }; // 0x7E '~'

const GFXfont FreeSans15pt7b = {
  FreeSans15pt7bBitmaps,
  FreeSans15pt7bGlyphs,
  0x20, 0x7E, 35 };

".
