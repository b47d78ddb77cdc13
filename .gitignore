__pycache__/
*.vo
*.vos
*.vok
*.glob
*.aux
.lia.cache
rocq/Makefile
rocq/Makefile.conf
rocq/.Makefile.d
