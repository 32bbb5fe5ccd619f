-Q theories Verif
theories/Base.v
theories/L_BufferedOut.v
theories/L_BufferedOut2.v
theories/L_BufferedOut3.v
theories/L_Canvas.v
theories/L_Circle.v
theories/L_ConvertText.v
theories/L_Converter.v
theories/L_ConverterBytes.v
theories/L_ConverterOrder.v
theories/L_ConverterRun.v
theories/L_ConverterSteady.v
theories/L_ConverterTexts.v
theories/L_Debug.v
theories/L_Decimal.v
theories/L_Drawing.v
theories/L_Endian.v
theories/L_Float.v
theories/L_Font.v
theories/L_FontText.v
theories/L_FrameBuffer.v
theories/L_Geometry.v
theories/L_Handles.v
theories/L_Header.v
theories/L_I2CShare.v
theories/L_LineTies.v
theories/L_LineTurn.v
theories/L_Lines.v
theories/L_MemoryView.v
theories/L_Misc.v
theories/L_Moves.v
theories/L_Options.v
theories/L_Outline.v
theories/L_Outside.v
theories/L_Packets.v
theories/L_Packing.v
theories/L_Paint.v
theories/L_Pbm.v
theories/L_Ranges.v
theories/L_Saved.v
theories/L_Scenes.v
theories/L_SerialOut.v
theories/L_Spi.v
theories/L_SpiShare.v
theories/L_SpiUses.v
theories/L_Storage.v
theories/L_Storage2.v
theories/L_Storage3.v
theories/L_Storage4.v
theories/L_Storage5.v
theories/L_TextRoom.v
theories/L_UartArduino.v
theories/L_UartEsp.v
theories/M_Analog.v
theories/M_BufferedOut.v
theories/M_Canvas.v
theories/M_Converter.v
theories/M_Debug.v
theories/M_Delays.v
theories/M_Drawing.v
theories/M_Endian.v
theories/M_Font.v
theories/M_FontData.v
theories/M_FontFile.v
theories/M_FontText.v
theories/M_FrameBuffer.v
theories/M_Geometry.v
theories/M_GeometryMore.v
theories/M_Gpio.v
theories/M_I2C.v
theories/M_I2CBus.v
theories/M_I2CShare.v
theories/M_MemoryView.v
theories/M_Options.v
theories/M_Packing.v
theories/M_Pbm.v
theories/M_Pictures.v
theories/M_Scenes.v
theories/M_SerialOut.v
theories/M_SpiArduino.v
theories/M_SpiEsp.v
theories/M_SpiShare.v
theories/M_Storage.v
theories/M_UartArduino.v
theories/M_UartEsp.v
theories/M_UartInit.v
theories/P_Anywhere.v
theories/P_BufferedOut.v
theories/P_Canvas.v
theories/P_Converter.v
theories/P_Debug.v
theories/P_Drawing.v
theories/P_Endian.v
theories/P_Font.v
theories/P_FontText.v
theories/P_FrameBuffer.v
theories/P_Geometry.v
theories/P_GeometryMore.v
theories/P_Handles.v
theories/P_Header.v
theories/P_I2CBus.v
theories/P_I2CShare.v
theories/P_Lines.v
theories/P_MemoryView.v
theories/P_Misc.v
theories/P_Moves.v
theories/P_Options.v
theories/P_Outline.v
theories/P_Packets.v
theories/P_Packing.v
theories/P_Pbm.v
theories/P_Ranges.v
theories/P_Saved.v
theories/P_Scenes.v
theories/P_SerialOut.v
theories/P_Spi.v
theories/P_SpiShare.v
theories/P_SpiUses.v
theories/P_Storage.v
theories/P_TextRoom.v
theories/P_Uart.v
theories/S_BufferedOut.v
theories/S_Converter.v
theories/S_ConverterBytes.v
theories/S_ConverterOrder.v
theories/S_Debug.v
theories/S_Drawing.v
theories/S_Endian.v
theories/S_Font.v
theories/S_FontText.v
theories/S_Graphics.v
theories/S_Handles.v
theories/S_Header.v
theories/S_I2CBus.v
theories/S_I2CShare.v
theories/S_Lines.v
theories/S_MemoryView.v
theories/S_Misc.v
theories/S_Moves.v
theories/S_Options.v
theories/S_Outline.v
theories/S_Outside.v
theories/S_Packets.v
theories/S_Packing.v
theories/S_Paint.v
theories/S_Pbm.v
theories/S_Ranges.v
theories/S_Spi.v
theories/S_SpiEsp.v
theories/S_SpiShare.v
theories/S_SpiUses.v
theories/S_Storage.v
theories/S_TextRoom.v
theories/S_Uart.v
theories/T_BufferedOut.v
theories/T_Endian.v
theories/T_Geometry.v
theories/T_MemoryView.v
theories/T_Storage.v
